(** DTLS 1.2 record and handshake-fragment layer:
    src/dtls12/message/record.rs, src/dtls12/message/handshake.rs:31-147,
    src/dtls12/incoming.rs (the parts that do not touch the engine). *)
From Verif Require Import Prelude Types Codec Codec12.

(** A handshake fragment: src/dtls12/message/handshake.rs:31-44 [Header] and
    [Handshake] with [Body::Fragment] replaced by the bytes of its range. *)
Record Frag12 := mkFrag {
  f_type : N; f_length : N; f_seq : N; f_off : N; f_flen : N;
  f_data : bytes; f_handled : bool }.

Definition set_f_handled (b : bool) (f : Frag12) : Frag12 :=
  mkFrag (f_type f) (f_length f) (f_seq f) (f_off f) (f_flen f) (f_data f) b.

(** src/dtls12/message/handshake.rs:140-147 [Handshake::serialize], header part *)
Definition s_hs_header (t length seq off flen : N) : bytes :=
  be 1 t ++ be 3 length ++ be 2 seq ++ be 3 off ++ be 3 flen.

(** src/dtls12/message/handshake.rs:79-138 [parse_header], [parse] with
    [as_fragment = true] *)
Definition p_frag12 (l : bytes) : option (Frag12 * bytes) :=
  '(t, l) <-? p_u8 l ;;
  '(n, l) <-? p_u24 l ;;
  '(s, l) <-? p_u16 l ;;
  '(o, l) <-? p_u24 l ;;
  '(fl, l) <-? p_u24 l ;;
  '(d, l) <-? take (N.to_nat fl) l ;;
  Some (mkFrag t n s o fl d false, l).

(** src/dtls12/incoming.rs:329-349 [parse_handshakes]: at most 8 fragments; stop
    silently at the first parse failure or when full.  Each fragment consumes at
    least 12 bytes; the loop runs at most 9 times because of the capacity. *)
Fixpoint p_frags12 (room : nat) (l : bytes) : list Frag12 :=
  match room, l with
  | O, _ => []
  | _, [] => []
  | S r, _ :: _ =>
    match p_frag12 l with
    | Some (f, rest) => f :: p_frags12 r rest
    | None => []
    end
  end.

(** src/dtls12/message/handshake.rs:298-314 [dupe_triggers_resend] *)
Definition dupe_triggers_resend (f : Frag12) : option N :=
  if negb (f_off f =? 0) then None
  else if memN (f_type f)
            [MT_ClientHello; MT_HelloVerifyRequest; MT_ServerHelloDone; MT_ClientKeyExchange]
       then Some (f_seq f) else None.

(** A received record: src/dtls12/message/record.rs:18-29 [DTLSRecord] with the
    fragment bytes, src/dtls12/incoming.rs:131-137, 268-272 [Record],
    [ParsedRecord].  [r_buf] is the buffer it was parsed from. *)
Record Rec12 := mkRec {
  r_ctype : N; r_version : N; r_epoch : N; r_seq : N; r_length : N; r_frag : bytes;
  r_hs : list Frag12; r_handled : bool; r_buf : bytes }.

Definition set_r_hs (v : list Frag12) (r : Rec12) : Rec12 :=
  mkRec (r_ctype r) (r_version r) (r_epoch r) (r_seq r) (r_length r) (r_frag r) v
        (r_handled r) (r_buf r).
Definition set_r_handled (v : bool) (r : Rec12) : Rec12 :=
  mkRec (r_ctype r) (r_version r) (r_epoch r) (r_seq r) (r_length r) (r_frag r) (r_hs r)
        v (r_buf r).

Definition HEADER_LEN : nat := 13. (* src/dtls12/message/record.rs:33 *)

(** src/dtls12/message/record.rs:42-112 [DTLSRecord::parse]; [skip] is
    [skip_offset].  Result: content type, version, epoch, sequence, length,
    fragment, rest.  [&input\[skip_offset..\]] panics when the input is too short;
    the only caller with [skip > 0] has checked the length. *)
Definition p_rec12 (skip : nat) (l : bytes)
  : option (N * N * N * N * N * bytes * bytes) :=
  '(ct, l) <-? p_u8 l ;;
  '(v, l) <-? p_u16 l ;;
  if negb ((v =? V_DTLS10) || (v =? V_DTLS12)) then None else
  '(ep, l) <-? p_u16 l ;;
  if (ep =? 0) && negb (memN ct [CT_CCS; CT_ALERT; CT_HS]) then None else
  '(sq, l) <-? p_u48 l ;;
  '(n, l) <-? p_u16 l ;;
  '(frag, rest) <-? take (N.to_nat n) (skipn skip l) ;;
  Some (ct, v, ep, sq, n, frag, rest).

(** src/dtls12/message/record.rs:120-127 [serialize]; the length field is the
    fragment length truncated to 16 bits (src/dtls12/engine.rs:849). *)
Definition s_rec12 (ct v ep sq : N) (frag : bytes) : bytes :=
  be 1 ct ++ be 2 v ++ be 2 ep ++ be 6 sq ++ be 2 (len frag) ++ frag.

(** src/dtls12/incoming.rs:275-296 [ParsedRecord::parse] *)
Definition p_parsed12 (skip : nat) (buf : bytes) : option Rec12 :=
  '(ct, v, ep, sq, n, frag, _) <-? p_rec12 skip buf ;;
  Some (mkRec ct v ep sq n frag (if ct =? CT_HS then p_frags12 8 frag else []) false buf).

(** src/dtls12/incoming.rs:244-250 [is_handled] *)
Definition rec_handled (r : Rec12) : bool :=
  match r_hs r with
  | [] => r_handled r
  | hs => forallb f_handled hs
  end.

(** src/dtls12/incoming.rs:235-241 [first_handshake] *)
Definition first_hs (r : Rec12) : option Frag12 := hd_error (r_hs r).

Fixpoint skip_while {A} (p : A -> bool) (l : list A) : list A :=
  match l with
  | [] => []
  | x :: r => if p x then skip_while p r else l
  end.

(** Traversal that updates elements left to right with a running state; used to
    set the [handled] flags. *)
Fixpoint map_acc {S A} (f : S -> A -> A * S) (st : S) (l : list A) : list A * S :=
  match l with
  | [] => ([], st)
  | x :: r =>
    let '(x', st') := f st x in
    let '(r', st'') := map_acc f st' r in
    (x' :: r', st'')
  end.

(** Set the handled flag of the first record satisfying [p], in queue order. *)
Definition mark_rec (p : Rec12 -> bool) (done : bool) (r : Rec12) : Rec12 * bool :=
  if done then (r, true) else if p r then (set_r_handled true r, true) else (r, false).
Definition mark_first (p : Rec12 -> bool) (q : list (list Rec12)) : list (list Rec12) :=
  fst (map_acc (map_acc (mark_rec p)) false q).

(** src/dtls12/message/handshake.rs:164-186: the handled set of [defragment] is the
    first unhandled fragment and the run of fragments after it with the same type
    and sequence number. *)
Inductive run_state := RunSkip | RunIn (t seq : N) | RunDone.
Definition mark_frag (st : run_state) (f : Frag12) : Frag12 * run_state :=
  match st with
  | RunSkip => if f_handled f then (f, RunSkip)
               else (set_f_handled true f, RunIn (f_type f) (f_seq f))
  | RunIn t s => if (f_type f =? t) && (f_seq f =? s) then (set_f_handled true f, RunIn t s)
                 else (f, RunDone)
  | RunDone => (f, RunDone)
  end.
Definition mark_rec_frags (st : run_state) (r : Rec12) : Rec12 * run_state :=
  let '(hs, st') := map_acc mark_frag st (r_hs r) in (set_r_hs hs r, st').
Definition mark_run (q : list (list Rec12)) : list (list Rec12) :=
  fst (map_acc (map_acc mark_rec_frags) RunSkip q).

(** All fragments in queue order. *)
Definition all_frags (q : list (list Rec12)) : list Frag12 := flat_map r_hs (concat q).

Definition same_msg (a b : Frag12) : bool := (f_type a =? f_type b) && (f_seq a =? f_seq b).

Fixpoint take_while {A} (p : A -> bool) (l : list A) : list A :=
  match l with
  | [] => []
  | x :: r => if p x then x :: take_while p r else []
  end.

(** The contiguity check of src/dtls12/engine.rs:627-648: fragments of other
    messages are skipped, the fragments of this one must follow each other. *)
Fixpoint frags_complete (seq total : N) (last_end : N) (l : list Frag12) : bool :=
  match l with
  | [] => false
  | h :: r =>
    if negb (f_seq h =? seq) then frags_complete seq total last_end r
    else if negb (f_off h =? last_end) then false
    else let e := f_off h + f_flen h in
         if e =? total then true else frags_complete seq total e r
  end.

(** src/dtls12/message/handshake.rs:362-364 [rejects_trailing_body_bytes] *)
Definition rejects_trailing12 (t : N) : bool := mt12_known t.
