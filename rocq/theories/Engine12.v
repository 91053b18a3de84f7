(** src/dtls12/engine.rs: the DTLS 1.2 engine (record protection, receive queue,
    send queue, timers), and the parts of src/dtls12/incoming.rs that call back
    into it. *)
From Verif Require Import Prelude Types Codec Codec12 Record12 Monad Timer Env Config Aead Prf
  Window Context12.

(** src/dtls12/engine.rs:124-129 [Entry]: content type, epoch, plaintext *)
Definition Entry12 := (N * N * bytes)%type.

(** src/dtls12/engine.rs:21-115 [Engine].  [en_orc] counts oracle draws (the
    state of the random number generator).  [sequence_epoch_0] and
    [sequence_epoch_n] have constant epochs 0 and 1 (engine.rs:151-152), so only
    their numbers are kept.  Not modelled: the buffer pool. *)
Record Eng12 := mkEng12 {
  en_cfg : Config; (* config *)
  en_seq0 : N; (* sequence_epoch_0 *)
  en_seqn : N; (* sequence_epoch_n *)
  en_rx : list (list Rec12); (* queue_rx *)
  en_tx : list bytes; (* queue_tx *)
  en_suite : option N; (* cipher_suite *)
  en_enl : nat; (* explicit_nonce_len *)
  en_minp : nat; (* min_protected_fragment_len *)
  en_crypto : Crypto12; (* crypto_context *)
  en_penc : bool; (* peer_encryption_enabled *)
  en_client : bool; (* is_client *)
  en_peer_hs : N; (* peer_handshake_seq_no *)
  en_next_hs : N; (* next_handshake_seq_no *)
  en_transcript : bytes; (* transcript *)
  en_replay : ReplayWindow; (* replay *)
  en_saved : list Entry12; (* flight_saved_records *)
  en_bo : Backoff; (* flight_backoff *)
  en_flight : Timeout; (* flight_timeout *)
  en_connect : Timeout; (* connect_timeout *)
  en_release : bool; (* release_app_data *)
  en_confirmed : bool; (* peer_handshake_confirmed *)
  en_cn_recv : bool; (* close_notify_received *)
  en_cn_rep : bool; (* close_notify_reported *)
  en_orc : N }. (* rng position *)

(** Field updates of [Eng12] ([self.f = v] in the Rust code). *)
Definition set_en_cfg (v : Config) (s : Eng12) : Eng12 :=
  mkEng12 v (en_seq0 s) (en_seqn s) (en_rx s) (en_tx s) (en_suite s) (en_enl s) (en_minp s) (en_crypto s) (en_penc s) (en_client s) (en_peer_hs s) (en_next_hs s) (en_transcript s) (en_replay s) (en_saved s) (en_bo s) (en_flight s) (en_connect s) (en_release s) (en_confirmed s) (en_cn_recv s) (en_cn_rep s) (en_orc s).
Definition set_en_seq0 (v : N) (s : Eng12) : Eng12 :=
  mkEng12 (en_cfg s) v (en_seqn s) (en_rx s) (en_tx s) (en_suite s) (en_enl s) (en_minp s) (en_crypto s) (en_penc s) (en_client s) (en_peer_hs s) (en_next_hs s) (en_transcript s) (en_replay s) (en_saved s) (en_bo s) (en_flight s) (en_connect s) (en_release s) (en_confirmed s) (en_cn_recv s) (en_cn_rep s) (en_orc s).
Definition set_en_seqn (v : N) (s : Eng12) : Eng12 :=
  mkEng12 (en_cfg s) (en_seq0 s) v (en_rx s) (en_tx s) (en_suite s) (en_enl s) (en_minp s) (en_crypto s) (en_penc s) (en_client s) (en_peer_hs s) (en_next_hs s) (en_transcript s) (en_replay s) (en_saved s) (en_bo s) (en_flight s) (en_connect s) (en_release s) (en_confirmed s) (en_cn_recv s) (en_cn_rep s) (en_orc s).
Definition set_en_rx (v : list (list Rec12)) (s : Eng12) : Eng12 :=
  mkEng12 (en_cfg s) (en_seq0 s) (en_seqn s) v (en_tx s) (en_suite s) (en_enl s) (en_minp s) (en_crypto s) (en_penc s) (en_client s) (en_peer_hs s) (en_next_hs s) (en_transcript s) (en_replay s) (en_saved s) (en_bo s) (en_flight s) (en_connect s) (en_release s) (en_confirmed s) (en_cn_recv s) (en_cn_rep s) (en_orc s).
Definition set_en_tx (v : list bytes) (s : Eng12) : Eng12 :=
  mkEng12 (en_cfg s) (en_seq0 s) (en_seqn s) (en_rx s) v (en_suite s) (en_enl s) (en_minp s) (en_crypto s) (en_penc s) (en_client s) (en_peer_hs s) (en_next_hs s) (en_transcript s) (en_replay s) (en_saved s) (en_bo s) (en_flight s) (en_connect s) (en_release s) (en_confirmed s) (en_cn_recv s) (en_cn_rep s) (en_orc s).
Definition set_en_suite (v : option N) (s : Eng12) : Eng12 :=
  mkEng12 (en_cfg s) (en_seq0 s) (en_seqn s) (en_rx s) (en_tx s) v (en_enl s) (en_minp s) (en_crypto s) (en_penc s) (en_client s) (en_peer_hs s) (en_next_hs s) (en_transcript s) (en_replay s) (en_saved s) (en_bo s) (en_flight s) (en_connect s) (en_release s) (en_confirmed s) (en_cn_recv s) (en_cn_rep s) (en_orc s).
Definition set_en_enl (v : nat) (s : Eng12) : Eng12 :=
  mkEng12 (en_cfg s) (en_seq0 s) (en_seqn s) (en_rx s) (en_tx s) (en_suite s) v (en_minp s) (en_crypto s) (en_penc s) (en_client s) (en_peer_hs s) (en_next_hs s) (en_transcript s) (en_replay s) (en_saved s) (en_bo s) (en_flight s) (en_connect s) (en_release s) (en_confirmed s) (en_cn_recv s) (en_cn_rep s) (en_orc s).
Definition set_en_minp (v : nat) (s : Eng12) : Eng12 :=
  mkEng12 (en_cfg s) (en_seq0 s) (en_seqn s) (en_rx s) (en_tx s) (en_suite s) (en_enl s) v (en_crypto s) (en_penc s) (en_client s) (en_peer_hs s) (en_next_hs s) (en_transcript s) (en_replay s) (en_saved s) (en_bo s) (en_flight s) (en_connect s) (en_release s) (en_confirmed s) (en_cn_recv s) (en_cn_rep s) (en_orc s).
Definition set_en_crypto (v : Crypto12) (s : Eng12) : Eng12 :=
  mkEng12 (en_cfg s) (en_seq0 s) (en_seqn s) (en_rx s) (en_tx s) (en_suite s) (en_enl s) (en_minp s) v (en_penc s) (en_client s) (en_peer_hs s) (en_next_hs s) (en_transcript s) (en_replay s) (en_saved s) (en_bo s) (en_flight s) (en_connect s) (en_release s) (en_confirmed s) (en_cn_recv s) (en_cn_rep s) (en_orc s).
Definition set_en_penc (v : bool) (s : Eng12) : Eng12 :=
  mkEng12 (en_cfg s) (en_seq0 s) (en_seqn s) (en_rx s) (en_tx s) (en_suite s) (en_enl s) (en_minp s) (en_crypto s) v (en_client s) (en_peer_hs s) (en_next_hs s) (en_transcript s) (en_replay s) (en_saved s) (en_bo s) (en_flight s) (en_connect s) (en_release s) (en_confirmed s) (en_cn_recv s) (en_cn_rep s) (en_orc s).
Definition set_en_client (v : bool) (s : Eng12) : Eng12 :=
  mkEng12 (en_cfg s) (en_seq0 s) (en_seqn s) (en_rx s) (en_tx s) (en_suite s) (en_enl s) (en_minp s) (en_crypto s) (en_penc s) v (en_peer_hs s) (en_next_hs s) (en_transcript s) (en_replay s) (en_saved s) (en_bo s) (en_flight s) (en_connect s) (en_release s) (en_confirmed s) (en_cn_recv s) (en_cn_rep s) (en_orc s).
Definition set_en_peer_hs (v : N) (s : Eng12) : Eng12 :=
  mkEng12 (en_cfg s) (en_seq0 s) (en_seqn s) (en_rx s) (en_tx s) (en_suite s) (en_enl s) (en_minp s) (en_crypto s) (en_penc s) (en_client s) v (en_next_hs s) (en_transcript s) (en_replay s) (en_saved s) (en_bo s) (en_flight s) (en_connect s) (en_release s) (en_confirmed s) (en_cn_recv s) (en_cn_rep s) (en_orc s).
Definition set_en_next_hs (v : N) (s : Eng12) : Eng12 :=
  mkEng12 (en_cfg s) (en_seq0 s) (en_seqn s) (en_rx s) (en_tx s) (en_suite s) (en_enl s) (en_minp s) (en_crypto s) (en_penc s) (en_client s) (en_peer_hs s) v (en_transcript s) (en_replay s) (en_saved s) (en_bo s) (en_flight s) (en_connect s) (en_release s) (en_confirmed s) (en_cn_recv s) (en_cn_rep s) (en_orc s).
Definition set_en_transcript (v : bytes) (s : Eng12) : Eng12 :=
  mkEng12 (en_cfg s) (en_seq0 s) (en_seqn s) (en_rx s) (en_tx s) (en_suite s) (en_enl s) (en_minp s) (en_crypto s) (en_penc s) (en_client s) (en_peer_hs s) (en_next_hs s) v (en_replay s) (en_saved s) (en_bo s) (en_flight s) (en_connect s) (en_release s) (en_confirmed s) (en_cn_recv s) (en_cn_rep s) (en_orc s).
Definition set_en_replay (v : ReplayWindow) (s : Eng12) : Eng12 :=
  mkEng12 (en_cfg s) (en_seq0 s) (en_seqn s) (en_rx s) (en_tx s) (en_suite s) (en_enl s) (en_minp s) (en_crypto s) (en_penc s) (en_client s) (en_peer_hs s) (en_next_hs s) (en_transcript s) v (en_saved s) (en_bo s) (en_flight s) (en_connect s) (en_release s) (en_confirmed s) (en_cn_recv s) (en_cn_rep s) (en_orc s).
Definition set_en_saved (v : list Entry12) (s : Eng12) : Eng12 :=
  mkEng12 (en_cfg s) (en_seq0 s) (en_seqn s) (en_rx s) (en_tx s) (en_suite s) (en_enl s) (en_minp s) (en_crypto s) (en_penc s) (en_client s) (en_peer_hs s) (en_next_hs s) (en_transcript s) (en_replay s) v (en_bo s) (en_flight s) (en_connect s) (en_release s) (en_confirmed s) (en_cn_recv s) (en_cn_rep s) (en_orc s).
Definition set_en_bo (v : Backoff) (s : Eng12) : Eng12 :=
  mkEng12 (en_cfg s) (en_seq0 s) (en_seqn s) (en_rx s) (en_tx s) (en_suite s) (en_enl s) (en_minp s) (en_crypto s) (en_penc s) (en_client s) (en_peer_hs s) (en_next_hs s) (en_transcript s) (en_replay s) (en_saved s) v (en_flight s) (en_connect s) (en_release s) (en_confirmed s) (en_cn_recv s) (en_cn_rep s) (en_orc s).
Definition set_en_flight (v : Timeout) (s : Eng12) : Eng12 :=
  mkEng12 (en_cfg s) (en_seq0 s) (en_seqn s) (en_rx s) (en_tx s) (en_suite s) (en_enl s) (en_minp s) (en_crypto s) (en_penc s) (en_client s) (en_peer_hs s) (en_next_hs s) (en_transcript s) (en_replay s) (en_saved s) (en_bo s) v (en_connect s) (en_release s) (en_confirmed s) (en_cn_recv s) (en_cn_rep s) (en_orc s).
Definition set_en_connect (v : Timeout) (s : Eng12) : Eng12 :=
  mkEng12 (en_cfg s) (en_seq0 s) (en_seqn s) (en_rx s) (en_tx s) (en_suite s) (en_enl s) (en_minp s) (en_crypto s) (en_penc s) (en_client s) (en_peer_hs s) (en_next_hs s) (en_transcript s) (en_replay s) (en_saved s) (en_bo s) (en_flight s) v (en_release s) (en_confirmed s) (en_cn_recv s) (en_cn_rep s) (en_orc s).
Definition set_en_release (v : bool) (s : Eng12) : Eng12 :=
  mkEng12 (en_cfg s) (en_seq0 s) (en_seqn s) (en_rx s) (en_tx s) (en_suite s) (en_enl s) (en_minp s) (en_crypto s) (en_penc s) (en_client s) (en_peer_hs s) (en_next_hs s) (en_transcript s) (en_replay s) (en_saved s) (en_bo s) (en_flight s) (en_connect s) v (en_confirmed s) (en_cn_recv s) (en_cn_rep s) (en_orc s).
Definition set_en_confirmed (v : bool) (s : Eng12) : Eng12 :=
  mkEng12 (en_cfg s) (en_seq0 s) (en_seqn s) (en_rx s) (en_tx s) (en_suite s) (en_enl s) (en_minp s) (en_crypto s) (en_penc s) (en_client s) (en_peer_hs s) (en_next_hs s) (en_transcript s) (en_replay s) (en_saved s) (en_bo s) (en_flight s) (en_connect s) (en_release s) v (en_cn_recv s) (en_cn_rep s) (en_orc s).
Definition set_en_cn_recv (v : bool) (s : Eng12) : Eng12 :=
  mkEng12 (en_cfg s) (en_seq0 s) (en_seqn s) (en_rx s) (en_tx s) (en_suite s) (en_enl s) (en_minp s) (en_crypto s) (en_penc s) (en_client s) (en_peer_hs s) (en_next_hs s) (en_transcript s) (en_replay s) (en_saved s) (en_bo s) (en_flight s) (en_connect s) (en_release s) (en_confirmed s) v (en_cn_rep s) (en_orc s).
Definition set_en_cn_rep (v : bool) (s : Eng12) : Eng12 :=
  mkEng12 (en_cfg s) (en_seq0 s) (en_seqn s) (en_rx s) (en_tx s) (en_suite s) (en_enl s) (en_minp s) (en_crypto s) (en_penc s) (en_client s) (en_peer_hs s) (en_next_hs s) (en_transcript s) (en_replay s) (en_saved s) (en_bo s) (en_flight s) (en_connect s) (en_release s) (en_confirmed s) (en_cn_recv s) v (en_orc s).
Definition set_en_orc (v : N) (s : Eng12) : Eng12 :=
  mkEng12 (en_cfg s) (en_seq0 s) (en_seqn s) (en_rx s) (en_tx s) (en_suite s) (en_enl s) (en_minp s) (en_crypto s) (en_penc s) (en_client s) (en_peer_hs s) (en_next_hs s) (en_transcript s) (en_replay s) (en_saved s) (en_bo s) (en_flight s) (en_connect s) (en_release s) (en_confirmed s) (en_cn_recv s) (en_cn_rep s) v.

Section Engine12.
Variable E : Env.

Notation EM := (M Eng12).

(** src/dtls12/engine.rs:138-173 [new] *)
Definition eng12_new (cfg : Config) (auth : AuthMode) : Eng12 :=
  mkEng12 cfg 0 0 [] [] None 0 0 (crypto12_new auth) false false 0 0 [] window_new []
    (backoff_new (c_rto cfg) (c_retries cfg) (e_jitter E 0)) Unarmed Unarmed
    false false false false 1.

(** One oracle draw. *)
Definition draw : EM N :=
  let! t := gets en_orc in
  modify (fun s => set_en_orc (en_orc s + 1) s) ;;; ret t.

(** [self.rng.random()] / [fill] of [n] bytes *)
Definition rand_bytes (n : nat) : EM bytes :=
  let! t := draw in ret (e_rand E t n).

(** src/dtls12/engine.rs:176-198 [set_client], [set_next_handshake_seq_no],
    [advance_epoch_0_sequence] *)
Definition set_client (b : bool) : EM unit := modify (set_en_client b).
Definition set_next_handshake_seq_no (n : N) : EM unit := modify (set_en_next_hs n).
Definition advance_epoch_0_sequence : EM unit :=
  modify (fun s => set_en_seq0 (en_seq0 s + 1) s).

(** src/dtls12/engine.rs:213-217 [is_cipher_suite_allowed] *)
Definition suite_allowed (s : Eng12) (cs : N) : bool := memN cs (cfg_suites12 E (en_cfg s)).

(** ** Receiving *)

(** src/dtls12/engine.rs:1172-1182 [peer_iv] and context getters *)
Definition peer_iv (s : Eng12) : option bytes :=
  if en_client s then k_siv (en_crypto s) else k_civ (en_crypto s).
(** src/dtls12/engine.rs:1061-1076 [decrypt_data]: the peer's cipher *)
Definition peer_cipher (s : Eng12) : option (N * bytes) :=
  if en_client s then k_scipher (en_crypto s) else k_ccipher (en_crypto s).
(** src/dtls12/engine.rs:1047-1058 [encrypt_data]: our cipher and IV *)
Definition own_cipher (s : Eng12) : option (N * bytes) :=
  if en_client s then k_ccipher (en_crypto s) else k_scipher (en_crypto s).
Definition own_iv (s : Eng12) : option bytes :=
  if en_client s then k_civ (en_crypto s) else k_siv (en_crypto s).

(** The nonce for a record, src/dtls12/engine.rs:799-814 and 1191-1195: by XOR
    when the suite has no explicit nonce, else by concatenation.  [None] where the
    Rust assertions on the IV length fail (src/crypto/dtls_aead.rs:90-95,
    107-113). *)
Definition record_nonce (enl : nat) (iv : bytes) (epoch seq : N) (explicit : bytes)
  : option bytes :=
  match enl with
  | O => if Nat.eqb (length iv) 12 then Some (nonce_xor iv (seq64 epoch seq)) else None
  | _ => if Nat.eqb (length iv + length explicit) 12 then Some (nonce_concat iv explicit) else None
  end.

(** src/dtls12/engine.rs:1184-1199 [decryption_aad_and_nonce] *)
Definition decryption_aad_and_nonce (r : Rec12) : EM (bytes * bytes) :=
  let! s := get in
  let plen := r_length r - u16 (N.of_nat (en_minp s)) in
  let aad := aad12 (r_ctype r) (r_epoch r) (r_seq r) plen in
  match peer_iv s with
  | None => panic 1174
  | Some iv =>
    match record_nonce (en_enl s) iv (r_epoch r) (r_seq r) (firstn (en_enl s) (r_frag r)) with
    | None => panic 1195
    | Some n => ret (aad, n)
    end
  end.

(** src/dtls12/incoming.rs:140-230 [Record::parse] of one record's bytes *)
Definition rec_parse (raw : bytes) : EM (option Rec12) :=
  match p_parsed12 0 raw with
  | None => ret None
  | Some r =>
    let! s := get in
    if (r_epoch r =? 0) || negb (en_penc s) then ret (Some r)
    else if negb (window_check (en_replay s) (r_seq r)) then ret None
    else if r_length r <? N.of_nat (en_minp s) then ret None
    else
      let! (aad, nonce) := decryption_aad_and_nonce r in
      let ct := skipn (HEADER_LEN + en_enl s) raw in
      match cipher_open E (peer_cipher s) nonce aad ct with
      | None => if en_release s then ret None else fail ECrypto
      | Some pt =>
        modify (fun s => set_en_replay (window_update (en_replay s) (r_seq r)) s) ;;;
        (* src/dtls12/engine.rs:1350-1359 [note_decrypted_record] *)
        when (r_ctype r =? CT_APP) (modify (set_en_confirmed true)) ;;;
        let buf := firstn 11 raw ++ be 2 (len pt) ++ firstn (en_enl s) (skipn 13 raw) ++ pt in
        match p_parsed12 (en_enl s) buf with
        | None => fail ETransient
        | Some r' => ret (Some r')
        end
      end
  end.

(** src/dtls12/engine.rs:1243-1334 [classify_record]: [None] drops the record. *)
Definition classify_record (r : Rec12) : EM (option Rec12) :=
  let! s := get in
  if (r_ctype r =? CT_CCS) && (r_epoch r =? 0) && en_penc s then ret None
  else if (r_ctype r =? CT_HS) && (r_epoch r =? 0) && en_penc s &&
          match first_hs r with
          | Some h => match dupe_triggers_resend h with Some _ => false | None => true end
          | None => true
          end
       then ret None
  else if r_ctype r =? CT_ALERT then
    if r_epoch r =? 0 then
      if en_penc s then ret None
      else match r_frag r with
           | lvl :: desc :: _ => if lvl =? 2 then fail (EFatalAlert desc) else ret None
           | _ => ret None
           end
    else if negb (en_penc s) then ret (Some r)
    else match r_frag r with
         | lvl :: desc :: _ =>
           if desc =? 0 then modify (set_en_cn_recv true) ;;; ret None
           else if lvl =? 2 then fail (EFatalAlert desc) else ret None
         | _ => ret None
         end
  else if en_cn_recv s && (r_ctype r =? CT_APP) then ret None
  else ret (Some r).

(** src/dtls12/incoming.rs:79-108: split the datagram into records and parse each;
    at most 8 are kept ([ArrayVec<Record, 8>]). [room] is the remaining capacity.
    Every iteration consumes at least 13 bytes, so [fuel := length packet] is
    never exhausted (proved in Engine12Proofs). *)
Fixpoint parse_loop (fuel : nat) (room : nat) (packet : bytes) : EM (list Rec12) :=
  match packet with
  | [] => ret []
  | _ :: _ =>
    match fuel with
    | O => panic 9001
    | S fuel' =>
      if Nat.ltb (length packet) HEADER_LEN then fail ETransient
      else
        let n := N.to_nat (unbe (firstn 2 (skipn 11 packet))) in
        let record_end := (HEADER_LEN + n)%nat in
        if Nat.ltb (length packet) record_end then fail ETransient
        else
          let! o := rec_parse (firstn record_end packet) in
          match o with
          | None => parse_loop fuel' room (skipn record_end packet)
          | Some r =>
            match room with
            | O => fail ETransient
            | S room' =>
              let! rs := parse_loop fuel' room' (skipn record_end packet) in
              ret (r :: rs)
            end
          end
    end
  end.

(** src/dtls12/incoming.rs:109-117: classify every record. *)
Fixpoint classify_all (rs : list Rec12) : EM (list Rec12) :=
  match rs with
  | [] => ret []
  | r :: rest =>
    let! o := classify_record r in
    let! rest' := classify_all rest in
    ret (match o with Some r' => r' :: rest' | None => rest' end)
  end.

(** src/dtls12/incoming.rs:70-119 [Records::parse] *)
Definition records_parse (packet : bytes) : EM (list Rec12) :=
  let! rs := parse_loop (length packet) 8 packet in classify_all rs.

(** ** Sending *)

(** src/dtls12/engine.rs:727-884 [create_record_inner].  The closure that fills
    the fragment is replaced by the fragment. *)
Definition can_append (s : Eng12) (force_new : bool) (wire : N) : bool :=
  match rev (en_tx s) with
  | [] => false
  | b :: _ => negb force_new && (len b + wire <=? c_mtu (en_cfg s))
  end.

Definition append_last (d : bytes) (q : list bytes) : list bytes :=
  match rev q with
  | [] => []
  | b :: r => rev r ++ [b ++ d]
  end.

Definition seal_record (ctype : N) (seq : N) (fragment : bytes) : EM bytes :=
  let! s := get in
  match own_iv s with
  | None => fail ECrypto
  | Some iv =>
    let enl := en_enl s in
    let! explicit :=
      match enl with
      | O => ret []
      | 8%nat => rand_bytes 8
      | _ => fail ECrypto
      end in
    match record_nonce enl iv 1 seq explicit with
    | None => panic 800
    | Some nonce =>
      match cipher_seal E (own_cipher s) nonce (aad12 ctype 1 seq (u16 (len fragment))) fragment with
      | None => fail ECrypto
      | Some ct => ret (explicit ++ ct)
      end
    end
  end.

Definition create_record_inner (ctype epoch : N) (save force_new : bool) (fragment : bytes)
  : EM unit :=
  let! s := get in
  (if 1 <=? epoch then match en_suite s with Some _ => ret tt | None => fail EInvalidState end
   else ret tt) ;;;
  when save (modify (fun s => set_en_saved (en_saved s ++ [(ctype, epoch, fragment)]) s)) ;;;
  let overhead := if 1 <=? epoch then N.of_nat (en_minp s) else 0 in
  let wire := 13 + len fragment + overhead in
  let app := can_append s force_new wire in
  if negb app && (c_max_tx (en_cfg s) <=? len (en_tx s)) then fail ETxFull
  else
    let sq := if epoch =? 0 then en_seq0 s else en_seqn s in
    let! frag := if 1 <=? epoch then seal_record ctype sq fragment else ret fragment in
    let rec := s_rec12 ctype V_DTLS12 (if epoch =? 0 then 0 else 1) sq frag in
    (if epoch =? 0 then modify (fun s => set_en_seq0 (en_seq0 s + 1) s)
     else modify (fun s => set_en_seqn (en_seqn s + 1) s)) ;;;
    if app then modify (fun s => set_en_tx (append_last rec (en_tx s)) s)
    else modify (fun s => set_en_tx (en_tx s ++ [rec]) s).

(** src/dtls12/engine.rs:714-725 [create_record] *)
Definition create_record (ctype epoch : N) (save : bool) (fragment : bytes) : EM unit :=
  create_record_inner ctype epoch save false fragment.

(** src/dtls12/engine.rs:932-1002: the fragmentation loop.  [rest] is
    [body\[offset..\]].  Zero-length chunks (MTU not above the fixed overhead) each
    open a new datagram, so the loop ends by filling the send queue; the fuel
    given by [create_handshake] is never exhausted (proved). *)
Fixpoint frag_loop (fuel : nat) (mt total seq epoch prot : N) (offset : N) (rest : bytes)
  : EM unit :=
  match rest with
  | [] => ret tt
  | _ :: _ =>
    match fuel with
    | O => panic 9002
    | S fuel' =>
      let! s := get in
      let mtu := c_mtu (en_cfg s) in
      let used := match rev (en_tx s) with [] => 0 | b :: _ => len b end in
      let avail_cur := mtu - used in
      let fixed := 13 + 12 + prot in
      let avail := if fixed <? avail_cur then avail_cur - fixed else mtu - fixed in
      let chunk := N.min (len rest) avail in
      let n := N.to_nat chunk in
      create_record CT_HS epoch true
        (s_hs_header mt total seq offset chunk ++ firstn n rest) ;;;
      frag_loop fuel' mt total seq epoch prot (offset + chunk) (skipn n rest)
    end
  end.

(** src/dtls12/engine.rs:887-1009 [create_handshake].  [body] is the callback
    filling the handshake body; it runs first and may fail. *)
Definition create_handshake (mt : N) (mkbody : EM bytes) : EM unit :=
  let! body := mkbody in
  let! s := get in
  let total := u32 (len body) in
  let seq := en_next_hs s in
  modify (fun s => set_en_transcript
            (en_transcript s ++ s_hs_header mt total seq 0 total ++ body) s) ;;;
  modify (fun s => set_en_next_hs (u16 (seq + 1)) s) ;;;
  let epoch := mt12_epoch mt in
  let! prot :=
    if 1 <=? epoch then
      match en_suite s with Some _ => ret (N.of_nat (en_minp s)) | None => fail EInvalidState end
    else ret 0 in
  match body with
  | [] => create_record CT_HS epoch true (s_hs_header mt total seq 0 0)
  | _ :: _ =>
    frag_loop (length body + N.to_nat (c_max_tx (en_cfg s)) + 2) mt total seq epoch prot 0 body
  end.

(** ** Flights and timers *)

(** src/dtls12/engine.rs:532-537 [flight_begin] *)
Definition flight_begin : EM unit :=
  let! t := draw in
  modify (fun s => set_en_flight Unarmed
            (set_en_saved [] (set_en_bo (backoff_reset (en_bo s) (e_jitter E t)) s))).

(** src/dtls12/engine.rs:539-553 [flight_stop_resend_timers] *)
Definition flight_stop_resend_timers : EM unit :=
  modify (fun s => set_en_connect Disabled (set_en_flight Disabled s)) ;;;
  let! s := get in
  when (en_client s) (modify (set_en_confirmed true)).

(** src/dtls12/engine.rs:572-588: re-create every saved record. *)
Fixpoint resend_loop (replace first : bool) (es : list Entry12) : EM unit :=
  match es with
  | [] => ret tt
  | (ct, ep, fr) :: r =>
    create_record_inner ct ep false (replace && first) fr ;;; resend_loop replace false r
  end.

(** src/dtls12/engine.rs:561-593 [flight_resend]; the saved records are put back
    on success and on error ([create_record_inner] with [save = false] does not
    touch them). *)
Definition flight_resend : EM unit :=
  let! s := get in
  let replace := negb (en_release s) in
  when replace (modify (set_en_tx [])) ;;;
  resend_loop replace true (en_saved s).

(** src/dtls12/engine.rs:371-417 [handle_timeout] *)
Definition eng12_handle_timeout (now : N) : EM unit :=
  let! s := get in
  when (timeout_is_unarmed (en_connect s))
    (modify (set_en_connect (Armed (now + c_hs_timeout (en_cfg s))))) ;;;
  when (timeout_is_unarmed (en_flight s))
    (modify (set_en_flight (Armed (now + backoff_rto (en_bo s))))) ;;;
  let! s := get in
  if match en_connect s with Armed c => c <=? now | _ => false end
  then fail (ETimeout TO_Connect)
  else
    match en_flight s with
    | Armed f =>
      if f <=? now then
        if backoff_can_retry (en_bo s) then
          let! t := draw in
          modify (fun s => set_en_bo (backoff_attempt (en_bo s) (e_jitter E t)) s) ;;;
          modify (fun s => set_en_flight (Armed (now + backoff_rto (en_bo s))) s) ;;;
          flight_resend
        else fail (ETimeout TO_Handshake)
      else ret tt
    | _ => ret tt
    end.

(** src/dtls12/engine.rs:509-530 [poll_timeout] *)
Definition poll_timeout (s : Eng12) (now : N) : N :=
  if timeout_is_disabled (en_connect s) && timeout_is_disabled (en_flight s)
  then now + distant_future
  else match en_connect s, en_flight s with
       | Armed c, Armed f => if c <? f then c else f
       | Armed c, _ => c
       | _, Armed f => f
       | _, _ => now
       end.

(** ** Receive queue *)

Definition cmp_pair (a b : N * N) : comparison :=
  match fst a ?= fst b with Eq => snd a ?= snd b | c => c end.

Definition insert_at {A} (i : nat) (x : A) (l : list A) : list A :=
  firstn i l ++ x :: skipn i l.

Definition bsearch (cs : list comparison) : EM (bool * nat) :=
  let! t := draw in ret (e_bsearch E t cs).

(** [Incoming::first]: an [Incoming] has at least one record
    (src/dtls12/incoming.rs:53-56). *)
Definition hs_key (inc : list Rec12) : N * N :=
  match inc with
  | r :: _ => match first_hs r with
              | Some h => (f_seq h, f_off h)
              | None => (65535, 4294967295)
              end
  | [] => (65535, 4294967295)
  end.
Definition rec_key (inc : list Rec12) : N * N :=
  match inc with r :: _ => (r_epoch r, r_seq r) | [] => (0, 0) end.

Fixpoint first_some {A B} (f : A -> option B) (l : list A) : option B :=
  match l with
  | [] => None
  | x :: r => match f x with Some y => Some y | None => first_some f r end
  end.

(** src/dtls12/engine.rs:258-325 [insert_incoming_handshake] *)
Definition insert_incoming_handshake (inc : list Rec12) (r : Rec12) (h : Frag12) : EM unit :=
  let! s := get in
  let dupe := first_some (fun r => match first_hs r with
                                   | Some h => dupe_triggers_resend h
                                   | None => None
                                   end) inc in
  match dupe with
  | Some d => when ((d <? en_peer_hs s) && negb (en_confirmed s)) flight_resend
  | None => ret tt
  end ;;;
  if f_seq h <? en_peer_hs s then ret tt
  else if en_penc s && (r_epoch r =? 0) then ret tt
  else if en_release s && (en_peer_hs s <=? f_seq h) then fail ERenegotiation
  else
    let! (found, i) := bsearch (map (fun it => cmp_pair (hs_key it) (f_seq h, f_off h)) (en_rx s)) in
    if found then ret tt
    else modify (fun s => set_en_rx (insert_at i inc (en_rx s)) s).

Definition mark_plain_hs (r : Rec12) : Rec12 :=
  if (r_epoch r =? 0) && (r_ctype r =? CT_HS) then
    match r_hs r with
    | [] => set_r_handled true r
    | hs => set_r_hs (map (set_f_handled true) hs) r
    end
  else r.

(** src/dtls12/engine.rs:327-369 [insert_incoming_non_handshake] *)
Definition insert_incoming_non_handshake (inc : list Rec12) (r : Rec12) : EM unit :=
  let! s := get in
  if en_penc s && (r_epoch r =? 0) && (r_ctype r =? CT_HS) then ret tt
  else
    let inc := if en_penc s then map mark_plain_hs inc else inc in
    let! (found, i) :=
      bsearch (map (fun it => cmp_pair (rec_key it) (r_epoch r, r_seq r)) (en_rx s)) in
    if found then (if r_epoch r =? 0 then ret tt else panic 364)
    else modify (fun s => set_en_rx (insert_at i inc (en_rx s)) s).

(** src/dtls12/engine.rs:239-256 [insert_incoming] *)
Definition insert_incoming (inc : list Rec12) : EM unit :=
  let! s := get in
  if c_max_rx (en_cfg s) <=? len (en_rx s) then fail ERxFull
  else match inc with
       | [] => ret tt
       | r :: _ =>
         match first_hs r with
         | Some h => insert_incoming_handshake inc r h
         | None => insert_incoming_non_handshake inc r
         end
       end.

(** src/dtls12/engine.rs:228-236 [parse_packet], src/dtls12/incoming.rs:43-60 *)
Definition eng12_parse_packet (packet : bytes) : EM unit :=
  let! rs := records_parse packet in
  match rs with
  | [] => ret tt
  | _ :: _ => insert_incoming rs
  end.

(** src/dtls12/engine.rs:599-648 [has_complete_handshake_with_seq], with
    [expected_seq = peer_handshake_seq_no] *)
Definition has_complete_handshake (s : Eng12) (wanted : N) : bool :=
  let recs := firstn 50 (skip_while rec_handled (concat (en_rx s))) in
  let hs := skip_while f_handled (flat_map r_hs recs) in
  match hs with
  | [] => false
  | first :: _ =>
    if negb (f_seq first =? en_peer_hs s) then false
    else if negb (f_type first =? wanted) then false
    else frags_complete (f_seq first) (f_length first) 0 hs
  end.

(** A defragmented handshake message. *)
Record Msg12 := mkMsg { m_type : N; m_seq : N; m_body : Body12; m_raw : bytes }.

(** src/dtls12/message/handshake.rs:150-246 [defragment] and
    src/dtls12/engine.rs:650-681 [next_handshake].  The iterator over unhandled
    records then unhandled handshakes is the list of all fragments without its
    handled prefix: every skipped record has only handled fragments. *)
Definition next_handshake (wanted : N) : EM (option Msg12) :=
  let! s := get in
  if negb (has_complete_handshake s wanted) then ret None
  else
    match skip_while f_handled (all_frags (en_rx s)) with
    | [] => panic 161
    | first :: more =>
      let run := first :: take_while (same_msg first) more in
      if Nat.ltb 50 (length run) then fail ETransient
      else
        let buffer := flat_map f_data run in
        if negb (len buffer =? f_length first) then fail ETransient
        else
          match p_body12 (f_type first) (en_suite s) buffer with
          | None =>
            modify (fun s => set_en_rx (mark_run (en_rx s)) s) ;;; fail ETransient
          | Some (body, rest) =>
            modify (fun s => set_en_rx (mark_run (en_rx s)) s) ;;;
            if negb (is_nil rest) && rejects_trailing12 (f_type first) then fail ETransient
            else
              modify (fun s => set_en_transcript
                (en_transcript s ++
                 s_hs_header (f_type first) (f_length first) (f_seq first) 0 (f_length first) ++
                 buffer) s) ;;;
              modify (fun s => set_en_peer_hs (u16 (f_seq first + 1)) s) ;;;
              ret (Some (mkMsg (f_type first) (f_seq first) body buffer))
          end
    end.

(** src/dtls12/engine.rs:683-697 [next_record]; [set_handled] asserts that the
    record has no handshakes (src/dtls12/incoming.rs:255). *)
Definition next_record (ctype : N) : EM (option Rec12) :=
  let! s := get in
  match skip_while rec_handled (concat (en_rx s)) with
  | [] => ret None
  | r :: _ =>
    if negb (r_ctype r =? ctype) then ret None
    else match r_hs r with
         | _ :: _ => panic 255
         | [] =>
           modify (fun s => set_en_rx (mark_first (fun r => negb (rec_handled r)) (en_rx s)) s) ;;;
           ret (Some r)
         end
  end.

(** src/dtls12/engine.rs:703-711 [drop_pending_ccs] *)
Definition drop_pending_ccs : EM unit :=
  modify (fun s => set_en_rx
    (map (map (fun r => if r_ctype r =? CT_CCS then set_r_handled true r else r)) (en_rx s)) s).

(** ** Output *)

(** src/lib.rs [Output]; [poll_output]'s buffer is represented by its size. *)
Inductive Output :=
| OPacket (p : bytes)
| OTooSmall (needed : N)
| OTimeout (t : N)
| OConnected
| OPeerCert (der : bytes)
| OKeying (material : bytes) (profile : N)
| OAppData (d : bytes)
| OCloseNotify.

(** src/dtls12/engine.rs:475-488 [purge_handled_queue_rx] *)
Definition purge_handled (q : list (list Rec12)) : list (list Rec12) :=
  skip_while (forallb rec_handled) q.

Definition is_app (r : Rec12) : bool := r_ctype r =? CT_APP.
Definition unhandled_app (r : Rec12) : bool := is_app r && negb (rec_handled r).

(** src/dtls12/engine.rs:445-473 [poll_app_data]; [set_handled]'s assertion as in
    [next_record]. *)
Definition poll_app_data (cap : N) : EM (option Output) :=
  let! s := get in
  if negb (en_release s) then ret None
  else match find unhandled_app (concat (en_rx s)) with
       | None => ret None
       | Some r =>
         let n := len (r_frag r) in
         if cap <? n then ret (Some (OTooSmall n))
         else match r_hs r with
              | _ :: _ => panic 255
              | [] => modify (fun s => set_en_rx (mark_first unhandled_app (en_rx s)) s) ;;;
                      ret (Some (OAppData (r_frag r)))
              end
       end.

(** src/dtls12/engine.rs:490-507 [poll_packet_tx] *)
Definition poll_packet_tx (cap : N) : EM (option Output) :=
  let! s := get in
  match en_tx s with
  | [] => ret None
  | p :: r => if cap <? len p then ret (Some (OTooSmall (len p)))
              else modify (set_en_tx r) ;;; ret (Some (OPacket p))
  end.

(** src/dtls12/engine.rs:419-443 [poll_output] *)
Definition eng12_poll_output (cap now : N) : EM Output :=
  modify (fun s => set_en_rx (purge_handled (en_rx s)) s) ;;;
  let! a := poll_app_data cap in
  match a with
  | Some o => ret o
  | None =>
    let! p := poll_packet_tx cap in
    match p with
    | Some o => ret o
    | None =>
      let! s := get in
      if en_cn_recv s && negb (en_cn_rep s)
      then modify (set_en_cn_rep true) ;;; ret OCloseNotify
      else ret (OTimeout (poll_timeout s now))
    end
  end.

(** ** Remaining engine operations *)

(** src/dtls12/engine.rs:1012-1035 *)
Definition release_application_data : EM unit := modify (set_en_release true).
Definition discard_pending_writes : EM unit := modify (set_en_tx []).
Definition eng12_abort : EM unit :=
  modify (fun s => set_en_connect Disabled (set_en_flight Disabled
                     (set_en_saved [] (set_en_tx [] s)))).

(** src/dtls12/engine.rs:1088-1099, 1109-1115 *)
Definition reset_server_for_hvr : EM unit :=
  modify (fun s => set_en_rx [] (set_en_transcript [] s)).
Definition reset_client_for_hvr : EM unit := modify (set_en_transcript []).

(** src/dtls12/engine.rs:1117-1121 [transcript_hash] *)
Definition transcript_hash (s : Eng12) (h : N) : bytes := e_hash E h (en_transcript s).

(** src/dtls12/engine.rs:1127-1141 [set_cipher_suite] *)
Definition set_cipher_suite (cs : N) : EM unit :=
  match find12 E cs with
  | None => panic 1136
  | Some i =>
    modify (fun s => set_en_suite (Some cs)
              (set_en_minp (s12_enl i + s12_tag i) (set_en_enl (s12_enl i) s)))
  end.

(** src/dtls12/engine.rs:1143-1170 [enable_peer_encryption]: datagrams from the
    first one holding an epoch-1 record on are taken out and their unhandled
    records parsed again. *)
Fixpoint split_epoch1 (q : list (list Rec12)) : list (list Rec12) * list (list Rec12) :=
  match q with
  | [] => ([], [])
  | inc :: r =>
    if existsb (fun r => r_epoch r =? 1) inc then ([], q)
    else let '(a, b) := split_epoch1 r in (inc :: a, b)
  end.

Definition enable_peer_encryption : EM unit :=
  modify (set_en_penc true) ;;;
  let! s := get in
  let '(keep, again) := split_epoch1 (en_rx s) in
  modify (set_en_rx keep) ;;;
  iterM (fun r => eng12_parse_packet (r_buf r))
        (filter (fun r => negb (rec_handled r)) (concat again)).

(** src/dtls12/engine.rs:1201-1239 [generate_verify_data] *)
Definition generate_verify_data (is_client : bool) : EM bytes :=
  let! s := get in
  match en_suite s with
  | None => fail EInvalidState
  | Some cs =>
    match verify_data12 E (transcript_hash s (suite12_hash cs)) is_client (suite12_hash cs)
            (en_crypto s) with
    | None => fail ECrypto
    | Some vd => if Nat.eqb (length vd) 12 then ret vd else fail ECrypto
    end
  end.

End Engine12.
