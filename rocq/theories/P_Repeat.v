(** * Property C114: a deletion can be repeated *)
From Coq Require Import Lia.
From Verif Require Import Base BaseFacts Text Win Errors Common Reply Ntlm Prog Client Spec SpecReply SpecMsg Api SpecCall
  MsgFacts SizeFacts Flow FlowFacts SpecRemote RemoteFacts RefServer RefFacts FileService FileFacts Sample SpecWild WildFacts
  SpecCutoff CutoffFacts SpecRepeat RepeatFacts P_Remote P_Wild P_Cutoff.
Open Scope N_scope.

(** C114: deletions of a path that names one file, one after the other, each on a connection of
    its own which may break at any byte of the answer or with the request.  However many there
    are: no other file is touched; the file does not come back; at most one of them reports
    success, and if one does, the file was there before the first and is gone after the last; and
    if the server does not refuse to delete what is there, then the file is gone as soon as one
    of them was answered, whatever the answer. *)
Theorem C114_repeated : forall Sn Sv St (net : Sn -> bytes -> reaction Sn) (react : Sv -> bytes -> reaction Sv) inner up (B : service St) abs has E tid path l st st',
  unreliable net react inner up -> conforming react B abs -> deletes_files B has -> is_str path -> ~ In 0 path -> no_wildcard (backslashes path) ->
  deletions net E (fun n => abs (inner n)) (in_order E up path) tid path l st st' ->
  (forall t q, (t, q) <> (tid, backslashes path) -> (has st' t q <-> has st t q))
  /\ (has st' tid (backslashes path) -> has st tid (backslashes path))
  /\ (In (Good tt) l -> has st tid (backslashes path) /\ ~ has st' tid (backslashes path))
  /\ (forall l1 l2, l = l1 ++ Good tt :: l2 -> ~ In (Good tt) l2)
  /\ (willing B has -> forall a, In a l -> (forall e, a <> Bad (ENetBios e)) -> ~ has st' tid (backslashes path)).
Proof. exact deletions_one. Qed.
Print Assumptions C114_repeated.

(** Each of them ends, answered by the service, or with an error of the network, in which case
    the service has carried it out or not. *)
Theorem C114_attempt : forall Sn Sv St (net : Sn -> bytes -> reaction Sn) (react : Sv -> bytes -> reaction Sv) inner up,
  unreliable net react inner up -> forall (B : service St) abs, conforming react B abs -> forall E path w s, is_str path -> in_order E up path w s ->
  exists n a w', (forall fuel, (n <= fuel)%nat -> run net (delete E fuel s path) w = Done a w')
  /\ ((a = returned (fst (B unit (uid (cl w)) (ODelete (sh_tid s) (backslashes path)) (abs (inner (srv w)))))
       /\ abs (inner (srv w')) = snd (B unit (uid (cl w)) (ODelete (sh_tid s) (backslashes path)) (abs (inner (srv w)))))
    \/ ((exists e, a = Bad (ENetBios e))
       /\ (abs (inner (srv w')) = abs (inner (srv w))
           \/ abs (inner (srv w')) = snd (B unit (uid (cl w)) (ODelete (sh_tid s) (backslashes path)) (abs (inner (srv w))))))).
Proof. intros Sn Sv St net react inner up H1 B abs H2 E path w s. exact (delete_attempt Sn Sv St net react inner up H1 B abs H2 E path w s). Qed.
Print Assumptions C114_attempt.

(** the server of C89 with the files a, b, d\a; the connection breaks 20 bytes into the answer to
    the deletion of d/a, which is repeated on a connection that holds: nobody reports success,
    but d\a is gone, and only that *)
Definition broken114 : world cifs ((nat * N * files) + files) := mk_world client0 (inl (0%nat, 20, three)) [] Open [].
Definition without_a : files := mk_files [(5, [97], [x31]); (5, [98], [x32])] [] 1.
Definition whole114 : world cifs ((nat * N * files) + files) := mk_world client0 (inl (7%nat, 0, without_a)) [] Open [].
Example C114_example : exists w1 w2,
  run (cable (ref_server WS0)) (delete (env0 true) 1000 share0 [100; 47; 97]) broken114 = Done (Bad (ENetBios UnexpectedEOF)) w1
  /\ server_in (srv w1) = without_a
  /\ run (cable (ref_server WS0)) (delete (env0 true) 1000 share0 [100; 47; 97]) whole114 = Done (Bad (ServerError (Known NAME_NOT_FOUND))) w2
  /\ server_in (srv w2) = without_a.
Proof. do 2 eexists. split; [runs|]. split; [runs|]. split; [runs|]. runs. Qed.
Lemma order114 (w : world cifs ((nat * N * files) + files)) : cl w = client0 -> idle w -> plugged (srv w) -> in_order (env0 true) plugged [100; 47; 97] w share0.
Proof.
  intros Hc Hi Hu. unfold in_order. rewrite Hc. split; [split; reflexivity|]. split; [exact Hi|]. split; [exact Hu|]. split; [reflexivity|].
  split; [reflexivity|]. intros _. vm_compute. discriminate.
Qed.
Example C114_hypotheses :
  deletions (cable (ref_server WS0)) (env0 true) server_in (in_order (env0 true) plugged [100; 47; 97]) 5 [100; 47; 97]
    [Bad (ENetBios UnexpectedEOF); Bad (ServerError (Known NAME_NOT_FOUND))] three without_a
  /\ deletes_files WS0 has_file /\ willing WS0 has_file /\ conforming (ref_server WS0) WS0 (fun s => s)
  /\ unreliable (cable (ref_server WS0)) (ref_server WS0) server_in plugged /\ no_wildcard (backslashes [100; 47; 97]).
Proof.
  destruct C114_example as (w1 & w2 & H1 & H2 & H3 & H4). split; [|split; [exact C89_server|split; [apply wild_willing|split; [exact WS0_conforming|split; [apply cable_unreliable|]]]]].
  - change three with (server_in (srv broken114)).
    apply (del_more _ _ _ _ _ _ broken114 share0 1000 _ w1); [apply order114; [reflexivity|split; reflexivity|exact I]|reflexivity|exact H1|].
    rewrite H2. change without_a with (server_in (srv whole114)) at 1.
    apply (del_more _ _ _ _ _ _ whole114 share0 1000 _ w2); [apply order114; [reflexivity|split; reflexivity|exact I]|reflexivity|exact H3|].
    rewrite H4. constructor.
  - exists [100; 92], [97]. split; [reflexivity|]. split; [right; exists [100]; reflexivity|]. split; [|split]; intros H; repeat (destruct H as [H|H]; [discriminate H|]); exact H.
Qed.
