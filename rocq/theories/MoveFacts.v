(** * MoveFacts: copying a directory tree and removing it afterwards, over connections that break (C127) *)
From Verif Require Import Base Text Win Errors Common Reply Ntlm Prog Client Spec SpecReply SpecMsg Api SpecCall BaseFacts TextFacts
  RunFacts MsgFacts SizeFacts Flow FlowFacts SpecRemote RemoteFacts RefServer RefFacts FileService FileFacts
  SpecLost SpecCutoff SpecHalf HalfFacts SpecTree TreeFacts SpecRemoval RemovalFacts SpecMove.
Open Scope N_scope.
Set Implicit Arguments.

Lemma local_counted St (B : service St) A (f : flow A) c st n a c' st' : local B f c st n a c' st' -> typed_client c ->
  typed_client c' /\ mid c' <= mid c + N.of_nat n.
Proof.
  induction 1 as [a c st|R q k c st r st1 n a c' st' Hq Hun Hfit HB _ IH|k c st n a c' st' _ IH|u k c st n a c' st' Hu _ IH|m u k c st n a c' st' _ IH];
    intros H; [split; [exact H|lia]| |now apply IH| |].
  - destruct H as [H1 H2]. destruct IH as [I1 I2].
    { split; [exact H1|]. unfold next_client, u16 in *. cbn [mid]. apply N.mod_lt. discriminate. }
    split; [exact I1|]. unfold next_client in I2. cbn [mid] in I2.
    assert ((mid c + 1) mod 65536 <= mid c + 1) by (apply N.mod_le; discriminate). lia.
  - destruct H as [H1 H2]. apply IH. now split.
  - destruct H as [H1 H2]. apply IH. now split.
Qed.

Section Net.
Variable the_tid : N.
Variable setup : server_setup.
Variables Sn Sv : Type.
Variable net : Sn -> bytes -> reaction Sn.
Variable react : Sv -> bytes -> reaction Sv.
Variable inner : Sn -> Sv.
Variable up : Sn -> Prop.
Hypothesis Hnet : unreliable net react inner up.
Variable abs : Sv -> dirs.
Hypothesis conf : conforming react (dir_service the_tid setup) abs.
Variable E : env.
Variable ns : list text.
Hypothesis Hns : Forall a_name ns.
Hypothesis Hshort : short (path_of ns ++ [42]).
Notation view := (fun n => abs (inner n)).

(** the first half *)
Lemma copy_phase (w : world cifs Sn) s t :
  typed_client (cl w) -> idle w -> up (srv w) -> u16 (sh_tid s) -> sh_tid s = the_tid -> fresh (ds_open (view (srv w))) < 65536 ->
  dir_at (ds_root (view (srv w))) ns = Some t -> listable t -> ordinary_tree (path_of ns) t -> room E (cl w) (1 + copy_calls t) ->
  exists k a w', (forall fuel n, (k <= fuel)%nat -> (k <= n)%nat -> run net (copy_tree E fuel n s (path_of ns)) w = Done a w')
    /\ ((a = Good t /\ view (srv w') = view (srv w) /\ typed_client (cl w') /\ mid (cl w') <= mid (cl w) + N.of_nat (1 + copy_calls t)
         /\ (idle w' /\ up (srv w') \/ silent w' /\ ~ up (srv w')))
        \/ ((exists e, a = Bad (ENetBios e)) /\ ds_root (view (srv w')) = ds_root (view (srv w)))).
Proof.
  intros Hc Hi Hup Hu Hs Hfr Hd Hl Ho Hr. rewrite Hs in Hu.
  destruct (@local_copy the_tid setup Hu s Hs t ns (weight t) (weight t) (cl w) (view (srv w))) as (m & c' & L & M); try assumption; try lia.
  destruct (harmless_copy (weight t) s (S (weight t)) (path_of ns)) as [Hh Hst].
  destruct (@half_program _ _ _ net react inner up Hnet _ abs conf E _ _ _ _ _ _ _ _ L Hst w eq_refl eq_refl Hc Hi Hup)
    as (k & a & w' & Hrun & Hcase).
  { intros Hov. specialize (Hr Hov). lia. }
  exists (Nat.max k (S (weight t))), a, w'. split; [|].
  - intros fuel n Hf Hn. rewrite (copy_same E fuel s n (path_of ns)). eapply run_less; [apply less_copy|apply Hrun; lia]; lia.
  - destruct (local_counted L Hc) as [C1 C2]. destruct Hcase as [(-> & Hcl & He & Hw)|(He & Hv & _)].
    + left. split; [reflexivity|]. split; [exact He|]. rewrite Hcl. split; [exact C1|]. split; [lia|exact Hw].
    + right. split; [exact He|]. exact (harmless_visited Hv Hh).
Qed.
(** the second half on a connection that is gone *)
Lemma clear_lost (w : world cifs Sn) s t :
  silent w -> ~ up (srv w) -> u16 (sh_tid s) -> sh_tid s = the_tid ->
  dir_at (ds_root (view (srv w))) ns = Some t -> listable t -> ordinary_tree (path_of ns) t -> room E (cl w) (1 + clear_calls t) ->
  exists a w', clears net E s ns w a w' /\ view (srv w') = view (srv w)
  /\ ((a = Good tt /\ dir_at (ds_root (view (srv w))) ns = Some Nothing) \/ exists e, a = Bad (ENetBios e)).
Proof.
  intros Hsi Hup Hu Hs Hd Hl Ho Hr. rewrite Hs in Hu.
  destruct (@local_clear the_tid setup Hu s Hs t ns (weight t) (weight t) (cl w) (view (srv w))) as (n & c' & L & M); try assumption; try lia.
  destruct (@silent_strict _ _ _ net react inner up Hnet _ E _ _ _ _ _ _ _ _ L (strict_clear _ _ _ _) w eq_refl Hsi Hup)
    as (k & a & w' & Hrun & Hin & _ & Hcase).
  { intros Hov. specialize (Hr Hov). lia. }
  exists a, w'. split; [|split].
  - exists (Nat.max k (S (weight t))). intros fuel d Hf Hdd. rewrite (clear_same E fuel s d (path_of ns)).
    eapply run_less; [apply less_clear|apply Hrun; lia]; lia.
  - now rewrite Hin.
  - destruct Hcase as [(-> & _ & He)|He]; [left|now right]. split; [reflexivity|]. rewrite <- He. exact (put_dir _ _ _ Hd).
Qed.

Lemma lost_room (c c' : cifs) a b m : room E c m -> mid c' <= mid c + N.of_nat a -> (a + b <= m)%nat -> room E c' b.
Proof. intros Hr H1 H2 Hov. specialize (Hr Hov). lia. Qed.

(** one run of the program *)
Lemma clear_phase (w : world cifs Sn) s m t R : typed_client (cl w) -> u16 (sh_tid s) -> sh_tid s = the_tid -> room E (cl w) m ->
  (idle w /\ up (srv w) \/ silent w /\ ~ up (srv w)) -> removable ns (ds_root (view (srv w))) m -> dir_at R ns = Some t ->
  partly_removed ns R (ds_root (view (srv w))) ->
  exists a w', clears net E s ns w a w' /\ ds_open (view (srv w')) = ds_open (view (srv w))
  /\ partly_removed ns R (ds_root (view (srv w'))) /\ partly_removed ns (ds_root (view (srv w))) (ds_root (view (srv w')))
  /\ removable ns (ds_root (view (srv w'))) m
  /\ ((a = Good tt /\ dir_at (ds_root (view (srv w'))) ns = Some Nothing) \/ exists e, a = Bad (ENetBios e)).
Proof.
  intros Hc Hu Hs Hr [[Hi Hup]|[Hsi Hup]] Hrem HR Hp.
  - destruct (@attempt the_tid setup _ _ net react inner up Hnet abs conf E ns Hns Hshort m w s) as (a & w' & H1 & H2 & H3 & H4 & H5).
    + repeat (split; [assumption|]). exact Hr.
    + exact Hrem.
    + exists a, w'. split; [exact H1|]. split; [exact H2|]. split; [exact (partly_trans Hp H3)|]. split; [exact H3|]. split; [exact H4|exact H5].
  - destruct Hrem as (u & Hd & Hl & Ho & Hm).
    destruct (@clear_lost w s u Hsi Hup Hu Hs Hd Hl Ho) as (a & w' & H1 & H2 & H3).
    { intros Hov. specialize (Hr Hov). lia. }
    exists a, w'. rewrite !H2. split; [exact H1|]. split; [reflexivity|]. split; [exact Hp|]. split; [apply partly_refl|]. split; [|exact H3].
    exists u. repeat (split; [assumption|]). exact Hm.
Qed.
Lemma move_once m (w : world cifs Sn) s R have : movable ns R m -> ready E up the_tid view m w s ->
  nothing_lost ns R have (ds_root (view (srv w))) -> removable ns (ds_root (view (srv w))) m ->
  exists have' a w', fetches_away net E s ns have w (have', a) w'
  /\ nothing_lost ns R have' (ds_root (view (srv w'))) /\ partly_removed ns (ds_root (view (srv w))) (ds_root (view (srv w')))
  /\ removable ns (ds_root (view (srv w'))) m
  /\ (have <> None -> have' = have)
  /\ ((a = Good tt /\ have' <> None /\ dir_at (ds_root (view (srv w'))) ns = Some Nothing
       /\ ds_open (view (srv w')) = ds_open (view (srv w))) \/ exists e, a = Bad (ENetBios e)).
Proof.
  intros (t & Hd & Hl & Ho & Hm) ((Hc & Hi & Hup & Hu & Hs & Hr) & Hfr) [Hh Hp] Hrem. destruct have as [u|].
  - destruct (@clear_phase w s m t R Hc Hu Hs Hr) as (a & w' & (k & H1) & H2 & H3 & H3' & H4 & H5); [left; now split|exact Hrem|exact Hd|exact Hp|].
    exists (Some u), a, w'. split; [|split; [split; assumption|split; [exact H3'|split; [exact H4|split; [reflexivity|]]]]].
    + exists k. intros fuel n Hf Hn. unfold move_tree. cbn [pbind]. rewrite run_bind, (H1 fuel n Hf Hn). reflexivity.
    + destruct H5 as [[-> H5]|H5]; [left|now right]. split; [reflexivity|]. split; [discriminate|]. split; [exact H5|exact H2].
  - rewrite <- Hh in Hd.
    destruct (@copy_phase w s t Hc Hi Hup Hu Hs Hfr Hd Hl Ho) as (k & a & w1 & H1 & [(-> & Hv & Hc1 & Hmid & Hw)|((e & ->) & Hv)]).
    { intros Hov. specialize (Hr Hov). lia. }
    + destruct (@clear_phase w1 s (1 + clear_calls t) t R Hc1 Hu Hs) as (a & w' & (k' & H2) & H3 & H4 & H4' & H5 & H6).
      * apply (@lost_room (cl w) (cl w1) (1 + copy_calls t) _ m Hr Hmid). lia.
      * exact Hw.
      * rewrite Hv. exists t. split; [exact Hd|]. split; [exact Hl|]. split; [exact Ho|lia].
      * rewrite <- Hh. exact Hd.
      * rewrite Hv. exact Hp.
      * exists (Some t), a, w'. split; [|split; [|split; [|split; [|split]]]].
        -- exists (Nat.max k k'). intros fuel n Hf Hn. unfold move_tree. rewrite run_bind, (H1 fuel n) by lia. cbn [obind].
           rewrite run_bind, (H2 fuel n) by lia. reflexivity.
        -- split; [rewrite <- Hh; exact Hd|exact H4].
        -- rewrite Hv in H4'. exact H4'.
        -- destruct H5 as (u & K1 & K2 & K3 & K4). exists u. repeat (split; [assumption|]). lia.
        -- intros K. now destruct K.
        -- destruct H6 as [[-> H6]|H6]; [left|now right]. split; [reflexivity|]. split; [discriminate|]. split; [exact H6|].
           rewrite H3. now rewrite Hv.
    + exists None, (Bad (ENetBios e)), w1. split; [|split; [|split; [|split; [|split]]]].
      * exists k. intros fuel n Hf Hn. unfold move_tree. rewrite run_bind, (H1 fuel n) by lia. reflexivity.
      * rewrite Hv. split; [exact Hh|exact Hp].
      * rewrite Hv. apply partly_refl.
      * rewrite Hv. exact Hrem.
      * intros K. now destruct K.
      * right. now exists e.
Qed.
Lemma away_same s have (w : world cifs Sn) x w' y v : fetches_away net E s ns have w x w' -> fetches_away net E s ns have w y v -> x = y /\ w' = v.
Proof.
  intros (k & H) (k' & H'). specialize (H (Nat.max k k') (Nat.max k k')). specialize (H' (Nat.max k k') (Nat.max k k')).
  specialize (H ltac:(lia) ltac:(lia)). specialize (H' ltac:(lia) ltac:(lia)). rewrite H' in H. injection H as -> ->. now split.
Qed.
Lemma stays_empty R R' v : partly_removed ns R R' -> removable ns R' v -> dir_at R ns = Some Nothing -> dir_at R' ns = Some Nothing.
Proof.
  intros [_ H2] (t & Hd & _) HR. rewrite Hd. destruct t as [|x d r|x sub r]; [reflexivity| |].
  - destruct (H2 (ns ++ [x])) as [[K|K] _].
    + clear. induction ns as [|y q IH]; [reflexivity|]. cbn [app below]. now rewrite eqb_same.
    + rewrite (file_inside _ ns Hd) in K. cbn [file_of] in K. rewrite eqb_same in K. discriminate.
    + rewrite (file_inside _ ns Hd), (file_inside _ ns HR) in K. cbn [file_of] in K. rewrite eqb_same in K. discriminate.
  - destruct (H2 (ns ++ [x])) as [_ [K|K]].
    + clear. induction ns as [|y q IH]; [reflexivity|]. cbn [app below]. now rewrite eqb_same.
    + rewrite (dir_inside _ ns Hd) in K. cbn [dir_at] in K. rewrite eqb_same in K. destruct sub; discriminate.
    + rewrite (dir_inside _ ns HR) in K. exfalso. now apply K.
Qed.
(** any number of runs *)
Lemma move_often m R l have R1 have' R' : movable ns R m -> trips net E view (ready E up the_tid view m) ns l have R1 have' R' ->
  nothing_lost ns R have R1 -> removable ns R1 m ->
  nothing_lost ns R have' R' /\ removable ns R' m /\ (have <> None -> have' = have)
  /\ (dir_at R1 ns = Some Nothing \/ In (Good tt) l -> dir_at R' ns = Some Nothing)
  /\ (In (Good tt) l -> have' <> None)
  /\ (forall a, In a l -> a = Good tt \/ exists e, a = Bad (ENetBios e)).
Proof.
  intros Hmov. induction 1 as [have R1|w s have a have1 w' l have' R' Hf Ha _ IH]; intros Hl Hrem.
  - split; [exact Hl|]. split; [exact Hrem|]. split; [reflexivity|]. split; [intros [H|[]]; exact H|]. split; [intros []|intros x []].
  - destruct (@move_once m w s R have Hmov Hf Hl Hrem) as (h & b & v & H1 & H2 & H2' & H3 & H4 & H5).
    destruct (away_same Ha H1) as [[= -> ->] ->]. destruct (IH H2 H3) as (I1 & I2 & I3 & I4 & I5 & I6).
    split; [exact I1|]. split; [exact I2|]. split; [|split; [|split]].
    + intros K. rewrite I3; [now apply H4|]. now rewrite H4.
    + intros [K|[->|K]].
      * apply I4. left. exact (stays_empty H2' H3 K).
      * apply I4. left. destruct H5 as [(_ & _ & H5 & _)|(e & H5)]; [exact H5|discriminate H5].
      * apply I4. now right.
    + intros [->|K]; [|now apply I5]. destruct H5 as [(_ & H5 & _)|(e & H5)]; [|discriminate H5]. rewrite I3; assumption.
    + intros x [<-|K]; [|now apply I6]. destruct H5 as [(-> & _)|H5]; [now left|now right].
Qed.
End Net.
