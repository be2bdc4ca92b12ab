(** * Gate: a service behind a login.  Not part of the model: a witness for the login
    properties. *)
From Verif Require Import Base Text Win Errors Common Reply Ntlm Prog Client Spec SpecReply SpecNtlm SpecMsg Api SpecCall
  Flow SpecLogin SpecRemote RefServer SpecAccount.
Open Scope N_scope.

(** sessions that wait for the second message, sessions that are logged in, the number of the
    next session, the service behind *)
Record gated (St : Type) := mk_gated {
  g_waiting : list N;
  g_entered : list N;
  g_next : N;
  g_behind : St
}.
Arguments mk_gated {St}.
Arguments g_waiting {St}.
Arguments g_entered {St}.
Arguments g_next {St}.
Arguments g_behind {St}.
Definition among (u : N) (l : list N) : bool := existsb (N.eqb u) l.
Definition same_bytes (x y : bytes) : bool := if list_eq_dec Byte.byte_eq_dec x y then true else false.

(** the DES key with the 56 bits of [k]: one byte for 7 bits *)
Definition bits_to_n (l : list bool) : N := fold_left (fun n b => 2 * n + N.b2n b) l 0.
Definition key_byte (k : bytes) (j : nat) : byte :=
  n2b (2 * bits_to_n (map (fun i => bit k (N.of_nat (7 * j + i))) (seq 0 7))).
Definition key_of (k : bytes) : bytes := map (key_byte k) (seq 0 8).
Definition expected_v1 (E : env) (h challenge : bytes) : bytes :=
  des E (key_of (take 7 h)) challenge ++ des E (key_of (take 7 (drop 7 h))) challenge
  ++ des E (key_of (take 2 (drop 14 h) ++ zeros 5)) challenge.
Definition right_v1 (E : env) (known : accounts) (user domain : text) (challenge nt : bytes) : bool :=
  match known user domain with
  | Some h => (len h =? 16) && same_bytes nt (expected_v1 E h challenge)
  | None => false
  end.
Definition right_v2 (E : env) (known : accounts) (user domain : text) (challenge nt : bytes) : bool :=
  match known user domain with
  | Some h =>
      (16 <=? len nt) && is_text (upper E user ++ domain)
      && same_bytes (take 16 nt) (hmac E (hmac E h (encode_utf16le (upper E user ++ domain))) (challenge ++ drop 16 nt))
  | None => false
  end.

(** the payload of the descriptor at [o] *)
Definition payload (m : bytes) (o : N) : option bytes :=
  match u16_at m o, u32_at m (o + 4) with
  | Some n, Some a => bytes_at m a n
  | _, _ => None
  end.
Definition payload_text (m : bytes) (o : N) : option text :=
  match payload m o with
  | Some b => match decode_utf16le b with Ok s => Some s | _ => None end
  | None => None
  end.
(** a challenge message: Unicode, no target name, target information [info] *)
Definition challenge_message (challenge info : bytes) : bytes :=
  SIGNATURE ++ le 4 2 ++ (le 2 0 ++ le 2 0 ++ le 4 48) ++ le 4 1 ++ challenge ++ zeros 8
  ++ (le 2 (len info) ++ le 2 (len info) ++ le 4 48) ++ info.

Section Gate.
Variable St : Type.
Variable E : env.
Variable known : accounts.
(** the answer to negotiation; the challenge of each session (for NTLMv1, that of the
    negotiation) *)
Variable setup : server_setup.
Variable nonce : N -> bytes.
Variable info : bytes.
Variable B : service St.

Definition refused : N := 0xc000006d.
Definition gate : service (gated St) := fun R who o s =>
  let pass := fun T (p : op T) =>
    if among who (g_entered s)
    then let (r, st) := B T who p (g_behind s) in (r, mk_gated (g_waiting s) (g_entered s) (g_next s) st)
    else (inr 0xc0000022, s) in
  match o in op R return (R + N) * gated St with
  | ONegotiate => (inl setup, s)
  | OSetupAuth user domain nt =>
      if (g_next s <? 65536) && right_v1 E known user domain (s_challenge setup) nt
      then (inl (mk_session false (g_next s) []),
            mk_gated (g_waiting s) (g_next s :: g_entered s) (g_next s + 1) (g_behind s))
      else (inr refused, s)
  | OSetupBlob m =>
      match u32_at m 8 with
      | Some 1 =>
        if g_next s <? 65536
        then (inl (mk_session false (g_next s) (challenge_message (nonce (g_next s)) info)),
              mk_gated (g_next s :: g_waiting s) (g_entered s) (g_next s + 1) (g_behind s))
        else (inr refused, s)
      | Some 3 =>
        match payload m 20, payload_text m 28, payload_text m 36 with
        | Some nt, Some domain, Some user =>
          if (who <? 65536) && among who (g_waiting s) && right_v2 E known user domain (nonce who) nt
          then (inl (mk_session false who []),
                mk_gated (g_waiting s) (who :: g_entered s) (g_next s) (g_behind s))
          else (inr refused, s)
        | _, _, _ => (inr refused, s)
        end
      | _ => (inr refused, s)
      end
  | OMount a b => pass _ (OMount a b)
  | OUmount a => pass _ (OUmount a)
  | OOpenFile a b => pass _ (OOpenFile a b)
  | OOpenDir a b => pass _ (OOpenDir a b)
  | OClose a b => pass _ (OClose a b)
  | ORead a b c => pass _ (ORead a b c)
  | ODelete a b => pass _ (ODelete a b)
  | ORmdir a b => pass _ (ORmdir a b)
  | ONotify a b c => pass _ (ONotify a b c)
  | OFindFirst a b => pass _ (OFindFirst a b)
  | OFindNext a b c => pass _ (OFindNext a b c)
  end.
End Gate.

(** programs that do not log in *)
Definition working {R} (c : call R) : Prop :=
  match c with Negotiate | SetupAuth _ _ _ | SetupBlob _ => False | _ => True end.
Fixpoint works {A} (f : flow A) : Prop :=
  match f with
  | FRet _ | FPanic | FFuel => True
  | FCall c k => working c /\ forall r, works (k r)
  | FState k => forall c, works (k c)
  | FUid _ _ | FOptions _ _ _ => False
  end.
