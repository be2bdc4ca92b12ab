(** * SpecBlame: what is wrong with a reply (C84).

    As SpecReply: by offsets, lengths and positions; no decoder of the model is used
    (only the names of the errors, smb/error.rs:10-62). *)
From Coq Require Import Permutation.
From Verif Require Import Base Win Errors Common Reply Api Spec SpecReply SpecCall.
Open Scope N_scope.

(** commands whose replies start with an AndX block: tree connect, open, read, session setup *)
Definition andx_code (code : N) : Prop := In code [0x75; 0xa2; 0x2e; 0x73].

(** the error for a reply [p] to the call [c] from which no value can be had:
    - it is followed by another reply (of a command that exists or not);
    - negotiation: too few words; no dialect; a dialect that was not offered;
    - transaction: only a part of the parameters or data;
    - in all other cases the data are invalid *)
Inductive blames {R} (c : call R) (p : bytes) : smb_error -> Prop :=
| blame_chain words data more x : smb_parts p words data more -> andx_code (opcode c) ->
    u8_at words 0 = Some x -> x <> 0xff -> In x known_codes -> blames c p (Unsupported AndXChaining)
| blame_code words data more x : smb_parts p words data more -> andx_code (opcode c) ->
    u8_at words 0 = Some x -> x <> 0xff -> ~ In x known_codes -> blames c p (InvalidCommand x)
| blame_words words data more : smb_parts p words data more -> opcode c = 0x72 ->
    len words < 17 -> blames c p (Unsupported TooFewParameter)
| blame_none words data more : smb_parts p words data more -> opcode c = 0x72 ->
    17 <= len words -> u16_at words 0 = Some 0xffff -> blames c p NoDialect
| blame_dialect words data more k : smb_parts p words data more -> opcode c = 0x72 ->
    17 <= len words -> u16_at words 0 = Some k -> k <> 0 -> k <> 0xffff -> blames c p InvalidHeader
| blame_part words data more tp td np nd : smb_parts p words data more -> opcode c = 0xa0 ->
    36 <= len words ->
    u32_at words 3 = Some tp -> u32_at words 7 = Some td -> u32_at words 11 = Some np -> u32_at words 23 = Some nd ->
    np < tp \/ nd < td -> blames c p (Unsupported SplitTransaction)
| blame_data words data more : smb_parts p words data more ->
    (andx_code (opcode c) -> u8_at words 0 = Some 0xff) ->
    (opcode c = 0x72 -> 17 <= len words /\ u16_at words 0 = Some 0) ->
    (opcode c = 0xa0 -> exists tp td np nd, u32_at words 3 = Some tp /\ u32_at words 7 = Some td
       /\ u32_at words 11 = Some np /\ u32_at words 23 = Some nd /\ tp <= np /\ td <= nd) ->
    blames c p InvalidData.

(** a piece of [d] at [o], of a block of [t'] bytes, after the pieces [ps] of a block of [t] bytes *)
Inductive piece_wrong (ps : list (N * bytes)) (t o : N) (d : bytes) (t' : N) : reassemble_msg -> Prop :=
| wrong_total : t' <> t -> piece_wrong ps t o d t' (TotalChanged t t')
| wrong_twice : t' = t -> d <> [] -> (exists d', In (o, d') ps /\ d' <> []) -> piece_wrong ps t o d t' (FragmentTwice o).
Definition piece_right (ps : list (N * bytes)) (t o : N) (d : bytes) (t' : N) : Prop :=
  t' = t /\ (d = [] \/ forall d', In (o, d') ps -> d' = []).
(** the parameter block is looked at first *)
Inductive fragment_wrong (fs : list trans2_reply) (tp td : N) (g : trans2_reply) : reassemble_msg -> Prop :=
| parameter_wrong e :
    piece_wrong (parameter_pieces fs) tp (f_parameter_offset g) (f_parameter g) (f_parameter_total g) e ->
    fragment_wrong fs tp td g e
| data_wrong e :
    piece_right (parameter_pieces fs) tp (f_parameter_offset g) (f_parameter g) (f_parameter_total g) ->
    piece_wrong (data_pieces fs) td (f_data_offset g) (f_data g) (f_data_total g) e ->
    fragment_wrong fs tp td g e.

(** at least [t] bytes of a block of [t] bytes are there, in the pieces [ps]: more than [t];
    or there is a piece that does not start where the ones before it end *)
Inductive block_wrong (ps : list (N * bytes)) (t : N) : reassemble_msg -> Prop :=
| wrong_length : size_of ps <> t -> block_wrong ps t (LengthMismatch t (size_of ps))
| wrong_offset l1 o d l2 b : size_of ps = t -> Permutation (l1 ++ (o, d) :: l2) (nonempty ps) ->
    tiles 0 l1 b -> Forall (fun e => fst e < o) l1 -> Forall (fun e => o < fst e) l2 -> o <> len b -> block_wrong ps t (OffsetMismatch o (len b)).
Inductive blocks_wrong (fs : list trans2_reply) (tp td : N) : reassemble_msg -> Prop :=
| parameters_wrong e : block_wrong (parameter_pieces fs) tp e -> blocks_wrong fs tp td e
| datas_wrong a e : reassembles (parameter_pieces fs) a -> len a = tp -> block_wrong (data_pieces fs) td e ->
    blocks_wrong fs tp td e.
