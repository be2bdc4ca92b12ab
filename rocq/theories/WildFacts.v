(** * WildFacts: deletes at servers that know wildcards (C89) *)
From Verif Require Import Base Text Win Errors Common Reply Ntlm Prog Client Spec SpecReply SpecMsg Api SpecCall
  BaseFacts MsgFacts SizeFacts Flow FlowFacts SpecRemote RemoteFacts RefServer RefFacts FileService FileFacts SpecWild.
Open Scope N_scope.

Lemma matches_plain p n : ~ In 42 p -> ~ In 63 p -> (matches p n <-> n = p).
Proof.
  intros H1 H2. split.
  - induction 1 as [|c p n _ _ _ IH|c p n _ IH|p n _ IH|c p n _ IH]; try reflexivity.
    + f_equal. apply IH; intros K; [apply H1|apply H2]; right; exact K.
    + exfalso. apply H2. left. reflexivity.
    + exfalso. apply H1. left. reflexivity.
    + exfalso. apply H1. left. reflexivity.
  - intros ->. induction p as [|c p IH]; constructor.
    + intros ->. apply H1. left. reflexivity.
    + intros ->. apply H2. left. reflexivity.
    + apply IH; intros K; [apply H1|apply H2]; right; exact K.
Qed.
Lemma directory_split a p : forall b q, a ++ p = b ++ q -> directory a -> directory b -> component p -> component q -> a = b /\ p = q.
Proof.
  induction a as [|x a IH]; intros b q H Ha Hb Hp Hq.
  - destruct b as [|y b]; [auto|]. exfalso. cbn [app] in H. destruct Hb as [Hb|(e & Hb)]; [discriminate Hb|]. apply Hp. rewrite H.
    change (y :: b ++ q) with ((y :: b) ++ q). rewrite Hb. apply in_or_app. left. apply in_or_app. right. left. reflexivity.
  - destruct b as [|y b].
    + exfalso. cbn [app] in H. destruct Ha as [Ha|(e & Ha)]; [discriminate Ha|]. apply Hq. rewrite <- H.
      change (x :: a ++ p) with ((x :: a) ++ p). rewrite Ha. apply in_or_app. left. apply in_or_app. right. left. reflexivity.
    + cbn [app] in H. injection H as -> H.
      assert (K : forall l : text, directory (y :: l) -> directory l).
      { intros l [Hl|(e & Hl)]; [discriminate Hl|]. destruct e as [|z e]; cbn [app] in Hl; injection Hl as _ ->; [left; reflexivity|right; eauto]. }
      destruct (IH b q H (K _ Ha) (K _ Hb) Hp Hq) as [-> ->]. auto.
Qed.
Lemma denotes_plain path q : no_wildcard path -> (denotes path q <-> q = path).
Proof.
  intros (dir & p & -> & Hd & Hp & H1 & H2). split.
  - intros (dir' & p' & n & He & -> & Hd' & Hp' & Hn & Hm). destruct (@directory_split _ _ _ _ He Hd Hd' Hp Hp') as [<- <-].
    apply matches_plain in Hm; [|exact H1|exact H2]. now subst n.
  - intros ->. exists dir, p, p. repeat split; try assumption. now apply matches_plain.
Qed.

Section Delete.
Variables Sv St : Type.
Variable react : Sv -> bytes -> reaction Sv.
Variable B : service St.
Variable abs : Sv -> St.
Hypothesis conf : conforming react B abs.
Variable has : St -> N -> text -> Prop.
Hypothesis wild : deletes_files B has.
Variable E : env.
Lemma delete_run w s path : typed_client (cl w) -> idle w ->
  u16 (sh_tid s) -> is_str path -> fits_request (use_unicode (cl w)) (Delete s path) -> room E (cl w) 1 ->
  exists k w', (forall fuel, (k <= fuel)%nat -> run react (delete E fuel s path) w
      = Done (returned (fst (B unit (uid (cl w)) (ODelete (sh_tid s) (backslashes path)) (abs (srv w))))) w')
    /\ idle w' /\ abs (srv w') = snd (B unit (uid (cl w)) (ODelete (sh_tid s) (backslashes path)) (abs (srv w))).
Proof.
  intros Ht Hi Hts Hp Hf Hr.
  destruct (@remote_call _ _ _ _ _ conf E _ (Delete s path) w Ht Hi) as (k & w' & f & Hrun & Hi' & _ & Habs & _).
  - now split.
  - exact I.
  - exact Hf.
  - intros [Ho Hm]. specialize (Hr Ho). lia.
  - exists k, w'. auto.
Qed.
Lemma no_nul path : ~ In 0 path -> terminated (backslashes path) (backslashes path).
Proof.
  intros H. apply terminated_end. unfold backslashes. rewrite in_map_iff. intros (c & Hc & Hin).
  destruct (c =? 47); [discriminate Hc|]. subst c. contradiction.
Qed.
Lemma delete_one w s path : typed_client (cl w) -> idle w ->
  u16 (sh_tid s) -> is_str path -> fits_request (use_unicode (cl w)) (Delete s path) -> room E (cl w) 1 ->
  ~ In 0 path -> no_wildcard (backslashes path) ->
  exists k a w', (forall fuel, (k <= fuel)%nat -> run react (delete E fuel s path) w = Done a w') /\ idle w'
    /\ (a = Good tt -> has (abs (srv w)) (sh_tid s) (backslashes path)
        /\ forall t q, has (abs (srv w')) t q <-> has (abs (srv w)) t q /\ (t, q) <> (sh_tid s, backslashes path))
    /\ forall t q, (t, q) <> (sh_tid s, backslashes path) -> (has (abs (srv w')) t q <-> has (abs (srv w)) t q).
Proof.
  intros Ht Hi Hts Hp Hf Hr Hz Hw. destruct (delete_run w s path Ht Hi Hts Hp Hf Hr) as (k & w' & Hrun & Hi' & Habs).
  pose proof (wild (uid (cl w)) (sh_tid s) _ _ (abs (srv w)) (no_nul path Hz)) as K.
  destruct (B unit (uid (cl w)) (ODelete (sh_tid s) (backslashes path)) (abs (srv w))) as [[v|st] st'] eqn:Eb; cbn [fst snd returned] in *; subst st'.
  - exists k, (Good v), w'. destruct v. split; [exact Hrun|]. split; [exact Hi'|].
    assert (K' : forall t q, has (abs (srv w')) t q <-> has (abs (srv w)) t q /\ (t, q) <> (sh_tid s, backslashes path)).
    { intros t q. rewrite (proj2 K t q). rewrite (denotes_plain _ q Hw). split; intros [H1 H2]; (split; [exact H1|]).
      - intros H. injection H as -> ->. auto.
      - intros [-> ->]. auto. }
    split.
    + intros _. destruct K as [(q & Hq & Hd) _]. apply (denotes_plain _ q Hw) in Hd. subst q. auto.
    + intros t q Hn. rewrite K'. tauto.
  - exists k, (Bad (ServerError (status_of_code st))), w'. split; [exact Hrun|]. split; [exact Hi'|]. split; [discriminate|].
    intros t q Hn. destruct (K t q) as [H1 H2]. split; [exact H1|]. intros H. destruct (H2 H) as [Hh|[-> Hd]]; [exact Hh|].
    apply (denotes_plain _ q Hw) in Hd. subst q. contradiction.
Qed.
(** whatever the path stands for is gone *)
Lemma delete_all w s path name : typed_client (cl w) -> idle w ->
  u16 (sh_tid s) -> is_str path -> fits_request (use_unicode (cl w)) (Delete s path) -> room E (cl w) 1 ->
  terminated (backslashes path) name ->
  exists k a w', (forall fuel, (k <= fuel)%nat -> run react (delete E fuel s path) w = Done a w') /\ idle w'
    /\ (a = Good tt -> forall q, denotes name q -> ~ has (abs (srv w')) (sh_tid s) q).
Proof.
  intros Ht Hi Hts Hp Hf Hr Hn. destruct (delete_run w s path Ht Hi Hts Hp Hf Hr) as (k & w' & Hrun & Hi' & Habs).
  pose proof (wild (uid (cl w)) (sh_tid s) _ _ (abs (srv w)) Hn) as K.
  exists k, (returned (fst (B unit (uid (cl w)) (ODelete (sh_tid s) (backslashes path)) (abs (srv w))))), w'. split; [exact Hrun|]. split; [exact Hi'|].
  destruct (B unit (uid (cl w)) (ODelete (sh_tid s) (backslashes path)) (abs (srv w))) as [[v|st] st'] eqn:Eb; cbn [fst snd returned] in *; subst st'; [|discriminate].
  intros _ q Hd Hh. apply (proj2 K) in Hh as [_ Hh]. auto.
Qed.
End Delete.

(** ** a service that knows wildcards *)
Fixpoint glob (p : text) : text -> bool :=
  match p with
  | [] => fun n => match n with [] => true | _ => false end
  | c :: p =>
    if c =? 42 then fix star n := glob p n || match n with [] => false | _ :: n => star n end
    else fun n => match n with [] => false | d :: n => ((c =? 63) || (c =? d)) && glob p n end
  end.
Lemma glob_star p n : glob (42 :: p) n = glob p n || match n with [] => false | _ :: n => glob (42 :: p) n end.
Proof. destruct n; reflexivity. Qed.
Lemma glob_matches p : forall n, glob p n = true <-> matches p n.
Proof.
  induction p as [|c p IH].
  - intros [|d n]; cbn [glob]; split; intros H; try constructor; try discriminate H; inversion H.
  - destruct (N.eqb_spec c 42) as [->|Hc].
    + induction n as [|d n IHn]; rewrite glob_star, orb_true_iff, IH.
      * split; [intros [H|H]; [now constructor|discriminate H]|]. intros H. inversion H; subst; auto; congruence.
      * rewrite IHn. split; [intros [H|H]; [now apply match_none|now apply match_more]|]. intros H. inversion H; subst; auto; congruence.
    + intros n. cbn [glob]. rewrite (proj2 (N.eqb_neq c 42) Hc). destruct n as [|d n].
      * split; [discriminate|]. intros H. inversion H; congruence.
      * rewrite andb_true_iff, orb_true_iff, !N.eqb_eq, IH. split.
        -- intros [[->| ->] H]; [now constructor|]. destruct (N.eq_dec d 63) as [->|Hd]; [now apply match_one|now apply match_same].
        -- intros H. inversion H; subst; auto; congruence.
Qed.
Fixpoint split_path (s : text) : text * text :=
  match s with
  | [] => ([], [])
  | c :: r => let (d, n) := split_path r in
    if c =? 92 then (c :: d, n) else match d with [] => ([], c :: n) | _ => (c :: d, n) end
  end.
Lemma split_path_ok s : let (d, n) := split_path s in s = d ++ n /\ directory d /\ component n.
Proof.
  induction s as [|c r IH]; [split; [reflexivity|]; split; [left; reflexivity|intros []]|].
  cbn [split_path]. destruct (split_path r) as [d n]. destruct IH as (-> & Hd & Hn).
  destruct (N.eqb_spec c 92) as [->|Hc].
  - split; [reflexivity|]. split; [|exact Hn]. right. destruct Hd as [->|(e & ->)]; [exists []; reflexivity|exists (92 :: e); reflexivity].
  - destruct d as [|x d].
    + split; [reflexivity|]. split; [left; reflexivity|]. intros [H|H]; [congruence|exact (Hn H)].
    + split; [reflexivity|]. split; [|exact Hn]. right. destruct Hd as [Hd|(e & ->)]; [discriminate Hd|]. exists (c :: e). reflexivity.
Qed.
Definition stands_for (path q : text) : bool :=
  let (d, p) := split_path path in let (d', n) := split_path q in text_eqb d d' && glob p n.
Lemma stands_for_ok path q : stands_for path q = true <-> denotes path q.
Proof.
  unfold stands_for. pose proof (split_path_ok path) as H1. pose proof (split_path_ok q) as H2.
  destruct (split_path path) as [d p]. destruct (split_path q) as [d' n]. destruct H1 as (-> & Hd & Hp). destruct H2 as (-> & Hd' & Hn).
  rewrite andb_true_iff, glob_matches. unfold text_eqb. destruct (list_eq_dec N.eq_dec d d') as [<-|Hne].
  - split.
    + intros [_ H]. exists d, p, n. repeat split; assumption.
    + intros (e & p' & n' & E1 & E2 & He & Hp' & Hn' & Hm).
      destruct (@directory_split _ _ _ _ E1 Hd He Hp Hp') as [<- <-]. apply app_inv_head in E2. subst n'. auto.
  - split; [intros [H _]; discriminate H|]. intros (e & p' & n' & E1 & E2 & He & Hp' & Hn' & Hm). exfalso. apply Hne.
    destruct (@directory_split _ _ _ _ E1 Hd He Hp Hp') as [-> _]. destruct (@directory_split _ _ _ _ E2 Hd' He Hn Hn') as [-> _]. reflexivity.
Qed.
Fixpoint before_nul (s : text) : text := match s with [] => [] | c :: r => if c =? 0 then [] else c :: before_nul r end.
Lemma before_nul_ok s n : terminated s n -> before_nul s = n.
Proof.
  assert (K : forall n r, ~ In 0 n -> before_nul (n ++ r) = n ++ before_nul r).
  { intros m r. induction m as [|c m IH]; [reflexivity|]. intros H. cbn [app before_nul].
    destruct (N.eqb_spec c 0) as [->|Hc]; [exfalso; apply H; left; reflexivity|]. f_equal. apply IH. intros Hi. apply H. right. exact Hi. }
  intros [m H|m r H]; [rewrite <- (app_nil_r m) at 1|]; rewrite K by exact H; cbn [before_nul N.eqb]; apply app_nil_r.
Qed.
Section Service.
Variable tree : text -> text -> option N.
Variable setup : server_setup.
Variable accepts : text -> text -> bytes -> option N.
Definition struck (tid : N) (path : text) (e : N * text * bytes) : bool :=
  (fst (fst e) =? tid) && stands_for (before_nul path) (snd (fst e)).
Definition wild_service : service files := fun R who o s =>
  match o in op R return (R + N) * files -> (R + N) * files with
  | ODelete tid path => fun _ =>
      if existsb (struck tid path) (fs_files s)
      then (inl tt, mk_files (filter (fun e => negb (struck tid path e)) (fs_files s)) (fs_open s) (fs_next s))
      else (inr ST_NOT_FOUND, s)
  | _ => fun r => r
  end (file_service tree setup accepts R who o s).
Definition has_file (s : files) (tid : N) (path : text) : Prop := exists d, In (tid, path, d) (fs_files s).
Lemma wild_deletes : deletes_files wild_service has_file.
Proof.
  intros who tid path name st Hn. cbn [wild_service].
  assert (K : forall e, struck tid path e = true <-> fst (fst e) = tid /\ denotes name (snd (fst e))).
  { intros e. unfold struck. rewrite (before_nul_ok _ _ Hn), andb_true_iff, N.eqb_eq, stands_for_ok. reflexivity. }
  destruct (existsb (struck tid path) (fs_files st)) eqn:Ee.
  - split.
    + apply existsb_exists in Ee as ([[t q] d] & Hin & H). apply K in H as [H1 H2]. cbn [fst snd] in H1, H2. subst t. exists q. split; [exists d; exact Hin|exact H2].
    + intros t q. unfold has_file. cbn [fs_files]. split.
      * intros (d & H). apply filter_In in H as [Hin H]. split; [exists d; exact Hin|]. intros Hk. apply negb_true_iff in H.
        rewrite (proj2 (K (t, q, d)) Hk) in H. discriminate H.
      * intros [(d & Hin) H]. exists d. apply filter_In. split; [exact Hin|]. apply negb_true_iff.
        destruct (struck tid path (t, q, d)) eqn:Es; [|reflexivity]. exfalso. apply H. exact (proj1 (K (t, q, d)) Es).
  - intros t q. split; [auto|]. intros H. left. exact H.
Qed.
Lemma wild_proper : proper (file_service tree setup accepts) -> proper wild_service.
Proof.
  intros H R who o s. specialize (H R who o s). destruct o; cbn [wild_service]; try exact H.
  destruct (existsb _ _); cbn [fst]; [exact I|]. vm_compute. repeat split; discriminate.
Qed.
End Service.
