(** DTLS 1.3 record layer: src/dtls13/message/record.rs and the parts of
    src/dtls13/incoming.rs that do not touch the engine.  Handshake fragments
    and received records have the same shape as in DTLS 1.2 ([Frag12], [Rec12]);
    src/dtls13/message/handshake.rs:31-118 has the same 12-byte header. *)
From Verif Require Import Prelude Types Codec Codec12 Codec13 Record12.

(** src/dtls13/message/record.rs:47-49 [is_ciphertext_header] *)
Definition is_ct_header (b : N) : bool := N.land b 224 =? 32.
Definition flag_c (b : N) : bool := negb (N.land b 16 =? 0).
Definition flag_s (b : N) : bool := negb (N.land b 8 =? 0).
Definition flag_l (b : N) : bool := negb (N.land b 4 =? 0).
Definition seq_len (b : N) : nat := if flag_s b then 2 else 1.
Definition len_len (b : N) : nat := if flag_l b then 2 else 0.
(** src/dtls13/incoming.rs:94-98 *)
Definition uhdr_len (b : N) : nat := 1 + seq_len b + len_len b.

(** A parsed record header: content type, epoch (two bits for a ciphertext
    record), number (8 or 16 bits for a ciphertext record), length field, offset
    of the fragment, fragment, rest of the input. *)
Record Hdr13 := mkHdr13 {
  d_ctype : N; d_epoch : N; d_seq : N; d_length : N; d_start : nat; d_frag : bytes }.

(** src/dtls13/message/record.rs:70-133 [parse_plaintext].  The content types are
    Alert, Handshake and ACK; the versions DTLS 1.0 and 1.2. *)
Definition p_plain13 (l : bytes) : option (Hdr13 * bytes) :=
  '(ct, l) <-? p_u8 l ;;
  if negb (memN ct [CT_ALERT; CT_HS; CT_ACK]) then None else
  '(v, l) <-? p_u16 l ;;
  if negb ((v =? V_DTLS10) || (v =? V_DTLS12)) then None else
  '(ep, l) <-? p_u16 l ;;
  if negb (ep =? 0) then None else
  '(sq, l) <-? p_u48 l ;;
  '(n, l) <-? p_u16 l ;;
  '(frag, rest) <-? take (N.to_nat n) l ;;
  Some (mkHdr13 ct ep sq n 13 frag, rest).

(** src/dtls13/message/record.rs:145-199 [parse_ciphertext] *)
Definition p_cipher13 (l : bytes) : option (Hdr13 * bytes) :=
  '(b, l) <-? p_u8 l ;;
  if flag_c b then None else
  '(sq, l) <-? p_be (seq_len b) l ;;
  if flag_l b then
    '(n, l) <-? p_u16 l ;;
    '(frag, rest) <-? take (N.to_nat n) l ;;
    Some (mkHdr13 CT_APP (N.land b 3) sq n (uhdr_len b) frag, rest)
  else
    let n := u16 (len l) in
    '(frag, rest) <-? take (N.to_nat n) l ;;
    Some (mkHdr13 CT_APP (N.land b 3) sq n (uhdr_len b) frag, rest).

(** src/dtls13/message/record.rs:52-68 [parse] *)
Definition p_rec13 (l : bytes) : option (Hdr13 * bytes) :=
  match l with
  | [] => None
  | b :: _ => if is_ct_header b then p_cipher13 l else p_plain13 l
  end.

(** src/dtls13/message/record.rs:215-222 [serialize_plaintext]; the length field is
    truncated to 16 bits. *)
Definition s_plain13 (ct ep sq : N) (frag : bytes) : bytes :=
  be 1 ct ++ be 2 V_DTLS12 ++ be 2 ep ++ be 6 sq ++ be 2 (len frag) ++ frag.
(** src/dtls13/message/record.rs:224-234 [serialize_ciphertext]: the unified header
    with a 16-bit number and a length, then the fragment. *)
Definition s_uhdr13 (ep sq n : N) : bytes :=
  N.lor 44 (N.land ep 3) :: be 2 sq ++ be 2 n.
Definition s_cipher13 (ep sq : N) (frag : bytes) : bytes :=
  s_uhdr13 ep sq (len frag) ++ frag.
(** src/dtls13/message/record.rs:207-213 [serialize] *)
Definition s_rec13 (ct ep sq : N) (frag : bytes) : bytes :=
  if ep =? 0 then s_plain13 ct ep sq frag else s_cipher13 ep sq frag.

(** src/dtls13/incoming.rs:360-375 [ParsedRecord::parse].  [r_version] is not part
    of a DTLS 1.3 record; it is set to the constant on the wire. *)
Definition rec13_of (ct ep sq n : N) (frag buf : bytes) : Rec12 :=
  mkRec ct V_DTLS12 ep sq n frag (if ct =? CT_HS then p_frags12 8 frag else []) false buf.
Definition p_parsed13 (buf : bytes) : option (Rec12 * nat) :=
  '(h, _) <-? p_rec13 buf ;;
  Some (rec13_of (d_ctype h) (d_epoch h) (d_seq h) (d_length h) (d_frag h) buf, d_start h).

(** src/dtls13/incoming.rs:461-485 [recover_inner_content_type]: the last non-zero
    byte is the content type, what precedes it the content. *)
Fixpoint inner_type (l : bytes) : option (N * bytes) :=
  match l with
  | [] => None
  | x :: r =>
    match inner_type r with
    | Some (t, c) => Some (t, x :: c)
    | None => if x =? 0 then None else Some (x, [])
    end
  end.

(** src/dtls13/incoming.rs:199-216 and src/dtls13/engine.rs:1121-1122: xor the first
    mask bytes over the sequence number of the unified header. *)
Definition xor_seq (n : nat) (mask : bytes) (l : bytes) : bytes :=
  match l with
  | [] => []
  | b :: r => b :: map (fun '(i, x) => N.lxor x (nth i mask 0)) (combine (seq 0 n) (firstn n r))
                ++ skipn n r
  end.

(** src/dtls13/message/handshake.rs:286-300 [dupe_triggers_resend] *)
Definition dupe_triggers_resend13 (f : Frag12) : option N :=
  if negb (f_off f =? 0) then None
  else if memN (f_type f) [MT_ClientHello; MT_Finished] then Some (f_seq f) else None.

(** The overlap-tolerant scan shared by src/dtls13/engine.rs:767-791
    [has_complete_handshake_with_seq], 1430-1446 [handshake_ack_help_needed] and
    1478-1494 [has_gap_in_incoming_handshake]. *)
Inductive scan := ScanComplete | ScanGap | ScanEnd.
Fixpoint frags_scan (seq total last_end : N) (l : list Frag12) : scan :=
  match l with
  | [] => ScanEnd
  | h :: r =>
    if negb (f_seq h =? seq) then frags_scan seq total last_end r
    else if last_end <? f_off h then ScanGap
    else let e := f_off h + f_flen h in
         let last' := if last_end <? e then e else last_end in
         if last' =? total then ScanComplete else frags_scan seq total last' r
  end.

(** src/dtls13/message/handshake.rs:181-219: assemble the run of fragments,
    skipping what is already there. *)
Fixpoint assemble13 (assembled_end : N) (l : list Frag12) : bytes :=
  match l with
  | [] => []
  | h :: r =>
    let fe := f_off h + f_flen h in
    let skip := assembled_end - f_off h in
    (if skip <? f_flen h then skipn (N.to_nat skip) (f_data h) else []) ++
    assemble13 (if assembled_end <? fe then fe else assembled_end) r
  end.
Definition assemble_run13 (run : list Frag12) : bytes :=
  match run with
  | [] => []
  | f :: r => f_data f ++ assemble13 (f_off f + f_flen f) r
  end.

(** ** ACK bodies, src/dtls13/engine.rs:1303-1330, 1558-1580, 1333-1364 *)
Definition s_ack (es : list (N * N)) : bytes :=
  be 2 (16 * len es) ++ flat_map (fun e => be 8 (fst e) ++ be 8 (snd e)) es.
Fixpoint p_ack_entries (fuel : nat) (l : bytes) : list (N * N) :=
  match fuel with
  | O => []
  | S f =>
    match l with
    | [] => []
    | _ :: _ => (unbe (firstn 8 l), unbe (firstn 8 (skipn 8 l))) :: p_ack_entries f (skipn 16 l)
    end
  end.
(** [None]: the ACK is ignored. *)
Definition p_ack (l : bytes) : option (list (N * N)) :=
  '(n, r) <-? p_u16 l ;;
  if negb (len r =? n) || negb (n mod 16 =? 0) then None
  else Some (p_ack_entries (length r) r).
