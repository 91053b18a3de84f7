(** src/dtls13/engine.rs: the DTLS 1.3 engine (key schedule, record protection,
    acknowledgements, receive and send queues, timers), and the parts of
    src/dtls13/incoming.rs that call back into it. *)
From Coq Require Import String.
From Verif Require Import Prelude Types Codec Codec12 Codec13 Record12 Record13 Monad Timer Env
  Config Aead Prf Window SeqRecon Engine12.
Close Scope string_scope.

(** src/dtls13/engine.rs:162-167 [EpochKeys]; the cipher object is its suite and
    key. *)
Record Keys13 := mkKeys13 {
  ek_suite : N; ek_key : bytes; ek_iv : bytes; ek_secret : bytes; ek_sn : bytes }.

(** src/dtls13/engine.rs:169-174 [RecvEpochEntry] *)
Record Recv13 := mkRecv13 {
  re_epoch : N; re_keys : Keys13; re_exp : N; re_win : ReplayWindow }.

(** src/dtls13/engine.rs:183-190 [Entry] *)
Record Entry13 := mkEntry13 {
  en13_ctype : N; en13_epoch : N; en13_seq : N; en13_frag : bytes; en13_acked : bool }.

(** src/dtls13/engine.rs:39-160 [Engine].  [g_orc] counts oracle draws.
    [sequence_epoch_0] has the constant epoch 0, so only its number is kept.  Not
    modelled: the buffer pool.  Counters the Rust code increments with [+=] on
    [u16] wrap here (release build); a build with overflow checks would panic. *)
Record Eng13 := mkEng13 {
  g_cfg : Config; (* config *)
  g_cert : bytes; (* certificate *)
  g_key : KeyInfo; (* signing_key *)
  g_seq0 : N; (* sequence_epoch_0 *)
  g_rx : list (list Rec12); (* queue_rx *)
  g_tx : list bytes; (* queue_tx *)
  g_suite : option N; (* cipher_suite *)
  g_hs_send : option Keys13; (* hs_send_keys *)
  g_hs_recv : option Keys13; (* hs_recv_keys *)
  g_hs_exp : N; (* hs_expected_recv_seq *)
  g_epoch : N; (* app_send_epoch *)
  g_hs_seq : N; (* hs_send_seq *)
  g_app_seq : N; (* app_send_seq *)
  g_app_send : option Keys13; (* app_send_keys *)
  g_prev : option Keys13; (* prev_app_send_keys *)
  g_prev_epoch : N; (* prev_app_send_epoch *)
  g_prev_seq : N; (* prev_app_send_seq *)
  g_recv : list Recv13; (* app_recv_keys *)
  g_penc : bool; (* peer_encryption_enabled *)
  g_client : bool; (* is_client *)
  g_peer_hs : N; (* peer_handshake_seq_no *)
  g_next_hs : N; (* next_handshake_seq_no *)
  g_transcript : bytes; (* transcript *)
  g_hs_replay : ReplayWindow; (* hs_replay *)
  g_rrn : list (N * N); (* received_record_numbers *)
  g_ackdl : option N; (* handshake_ack_deadline *)
  g_sealed : bool; (* datagram_sealed *)
  g_saved : list Entry13; (* flight_saved_records *)
  g_bo : Backoff; (* flight_backoff *)
  g_flight : Timeout; (* flight_timeout *)
  g_connect : Timeout; (* connect_timeout *)
  g_release : bool; (* release_app_data *)
  g_exp : option bytes; (* exporter_master_secret *)
  g_count : N; (* app_send_record_count *)
  g_thr : N; (* aead_encryption_threshold *)
  g_needs : bool; (* needs_key_update *)
  g_inflight : bool; (* key_update_in_flight *)
  g_cn : option (N * N); (* close_notify_sequence: epoch, number *)
  g_cn_rep : bool; (* close_notify_reported *)
  g_orc : N }. (* rng position *)

(** Field updates of [Eng13] ([self.f = v] in the Rust code). *)
Definition set_g_cfg (v : Config) (s : Eng13) : Eng13 :=
  mkEng13 v (g_cert s) (g_key s) (g_seq0 s) (g_rx s) (g_tx s) (g_suite s) (g_hs_send s) (g_hs_recv s) (g_hs_exp s) (g_epoch s) (g_hs_seq s) (g_app_seq s) (g_app_send s) (g_prev s) (g_prev_epoch s) (g_prev_seq s) (g_recv s) (g_penc s) (g_client s) (g_peer_hs s) (g_next_hs s) (g_transcript s) (g_hs_replay s) (g_rrn s) (g_ackdl s) (g_sealed s) (g_saved s) (g_bo s) (g_flight s) (g_connect s) (g_release s) (g_exp s) (g_count s) (g_thr s) (g_needs s) (g_inflight s) (g_cn s) (g_cn_rep s) (g_orc s).
Definition set_g_cert (v : bytes) (s : Eng13) : Eng13 :=
  mkEng13 (g_cfg s) v (g_key s) (g_seq0 s) (g_rx s) (g_tx s) (g_suite s) (g_hs_send s) (g_hs_recv s) (g_hs_exp s) (g_epoch s) (g_hs_seq s) (g_app_seq s) (g_app_send s) (g_prev s) (g_prev_epoch s) (g_prev_seq s) (g_recv s) (g_penc s) (g_client s) (g_peer_hs s) (g_next_hs s) (g_transcript s) (g_hs_replay s) (g_rrn s) (g_ackdl s) (g_sealed s) (g_saved s) (g_bo s) (g_flight s) (g_connect s) (g_release s) (g_exp s) (g_count s) (g_thr s) (g_needs s) (g_inflight s) (g_cn s) (g_cn_rep s) (g_orc s).
Definition set_g_key (v : KeyInfo) (s : Eng13) : Eng13 :=
  mkEng13 (g_cfg s) (g_cert s) v (g_seq0 s) (g_rx s) (g_tx s) (g_suite s) (g_hs_send s) (g_hs_recv s) (g_hs_exp s) (g_epoch s) (g_hs_seq s) (g_app_seq s) (g_app_send s) (g_prev s) (g_prev_epoch s) (g_prev_seq s) (g_recv s) (g_penc s) (g_client s) (g_peer_hs s) (g_next_hs s) (g_transcript s) (g_hs_replay s) (g_rrn s) (g_ackdl s) (g_sealed s) (g_saved s) (g_bo s) (g_flight s) (g_connect s) (g_release s) (g_exp s) (g_count s) (g_thr s) (g_needs s) (g_inflight s) (g_cn s) (g_cn_rep s) (g_orc s).
Definition set_g_seq0 (v : N) (s : Eng13) : Eng13 :=
  mkEng13 (g_cfg s) (g_cert s) (g_key s) v (g_rx s) (g_tx s) (g_suite s) (g_hs_send s) (g_hs_recv s) (g_hs_exp s) (g_epoch s) (g_hs_seq s) (g_app_seq s) (g_app_send s) (g_prev s) (g_prev_epoch s) (g_prev_seq s) (g_recv s) (g_penc s) (g_client s) (g_peer_hs s) (g_next_hs s) (g_transcript s) (g_hs_replay s) (g_rrn s) (g_ackdl s) (g_sealed s) (g_saved s) (g_bo s) (g_flight s) (g_connect s) (g_release s) (g_exp s) (g_count s) (g_thr s) (g_needs s) (g_inflight s) (g_cn s) (g_cn_rep s) (g_orc s).
Definition set_g_rx (v : list (list Rec12)) (s : Eng13) : Eng13 :=
  mkEng13 (g_cfg s) (g_cert s) (g_key s) (g_seq0 s) v (g_tx s) (g_suite s) (g_hs_send s) (g_hs_recv s) (g_hs_exp s) (g_epoch s) (g_hs_seq s) (g_app_seq s) (g_app_send s) (g_prev s) (g_prev_epoch s) (g_prev_seq s) (g_recv s) (g_penc s) (g_client s) (g_peer_hs s) (g_next_hs s) (g_transcript s) (g_hs_replay s) (g_rrn s) (g_ackdl s) (g_sealed s) (g_saved s) (g_bo s) (g_flight s) (g_connect s) (g_release s) (g_exp s) (g_count s) (g_thr s) (g_needs s) (g_inflight s) (g_cn s) (g_cn_rep s) (g_orc s).
Definition set_g_tx (v : list bytes) (s : Eng13) : Eng13 :=
  mkEng13 (g_cfg s) (g_cert s) (g_key s) (g_seq0 s) (g_rx s) v (g_suite s) (g_hs_send s) (g_hs_recv s) (g_hs_exp s) (g_epoch s) (g_hs_seq s) (g_app_seq s) (g_app_send s) (g_prev s) (g_prev_epoch s) (g_prev_seq s) (g_recv s) (g_penc s) (g_client s) (g_peer_hs s) (g_next_hs s) (g_transcript s) (g_hs_replay s) (g_rrn s) (g_ackdl s) (g_sealed s) (g_saved s) (g_bo s) (g_flight s) (g_connect s) (g_release s) (g_exp s) (g_count s) (g_thr s) (g_needs s) (g_inflight s) (g_cn s) (g_cn_rep s) (g_orc s).
Definition set_g_suite (v : option N) (s : Eng13) : Eng13 :=
  mkEng13 (g_cfg s) (g_cert s) (g_key s) (g_seq0 s) (g_rx s) (g_tx s) v (g_hs_send s) (g_hs_recv s) (g_hs_exp s) (g_epoch s) (g_hs_seq s) (g_app_seq s) (g_app_send s) (g_prev s) (g_prev_epoch s) (g_prev_seq s) (g_recv s) (g_penc s) (g_client s) (g_peer_hs s) (g_next_hs s) (g_transcript s) (g_hs_replay s) (g_rrn s) (g_ackdl s) (g_sealed s) (g_saved s) (g_bo s) (g_flight s) (g_connect s) (g_release s) (g_exp s) (g_count s) (g_thr s) (g_needs s) (g_inflight s) (g_cn s) (g_cn_rep s) (g_orc s).
Definition set_g_hs_send (v : option Keys13) (s : Eng13) : Eng13 :=
  mkEng13 (g_cfg s) (g_cert s) (g_key s) (g_seq0 s) (g_rx s) (g_tx s) (g_suite s) v (g_hs_recv s) (g_hs_exp s) (g_epoch s) (g_hs_seq s) (g_app_seq s) (g_app_send s) (g_prev s) (g_prev_epoch s) (g_prev_seq s) (g_recv s) (g_penc s) (g_client s) (g_peer_hs s) (g_next_hs s) (g_transcript s) (g_hs_replay s) (g_rrn s) (g_ackdl s) (g_sealed s) (g_saved s) (g_bo s) (g_flight s) (g_connect s) (g_release s) (g_exp s) (g_count s) (g_thr s) (g_needs s) (g_inflight s) (g_cn s) (g_cn_rep s) (g_orc s).
Definition set_g_hs_recv (v : option Keys13) (s : Eng13) : Eng13 :=
  mkEng13 (g_cfg s) (g_cert s) (g_key s) (g_seq0 s) (g_rx s) (g_tx s) (g_suite s) (g_hs_send s) v (g_hs_exp s) (g_epoch s) (g_hs_seq s) (g_app_seq s) (g_app_send s) (g_prev s) (g_prev_epoch s) (g_prev_seq s) (g_recv s) (g_penc s) (g_client s) (g_peer_hs s) (g_next_hs s) (g_transcript s) (g_hs_replay s) (g_rrn s) (g_ackdl s) (g_sealed s) (g_saved s) (g_bo s) (g_flight s) (g_connect s) (g_release s) (g_exp s) (g_count s) (g_thr s) (g_needs s) (g_inflight s) (g_cn s) (g_cn_rep s) (g_orc s).
Definition set_g_hs_exp (v : N) (s : Eng13) : Eng13 :=
  mkEng13 (g_cfg s) (g_cert s) (g_key s) (g_seq0 s) (g_rx s) (g_tx s) (g_suite s) (g_hs_send s) (g_hs_recv s) v (g_epoch s) (g_hs_seq s) (g_app_seq s) (g_app_send s) (g_prev s) (g_prev_epoch s) (g_prev_seq s) (g_recv s) (g_penc s) (g_client s) (g_peer_hs s) (g_next_hs s) (g_transcript s) (g_hs_replay s) (g_rrn s) (g_ackdl s) (g_sealed s) (g_saved s) (g_bo s) (g_flight s) (g_connect s) (g_release s) (g_exp s) (g_count s) (g_thr s) (g_needs s) (g_inflight s) (g_cn s) (g_cn_rep s) (g_orc s).
Definition set_g_epoch (v : N) (s : Eng13) : Eng13 :=
  mkEng13 (g_cfg s) (g_cert s) (g_key s) (g_seq0 s) (g_rx s) (g_tx s) (g_suite s) (g_hs_send s) (g_hs_recv s) (g_hs_exp s) v (g_hs_seq s) (g_app_seq s) (g_app_send s) (g_prev s) (g_prev_epoch s) (g_prev_seq s) (g_recv s) (g_penc s) (g_client s) (g_peer_hs s) (g_next_hs s) (g_transcript s) (g_hs_replay s) (g_rrn s) (g_ackdl s) (g_sealed s) (g_saved s) (g_bo s) (g_flight s) (g_connect s) (g_release s) (g_exp s) (g_count s) (g_thr s) (g_needs s) (g_inflight s) (g_cn s) (g_cn_rep s) (g_orc s).
Definition set_g_hs_seq (v : N) (s : Eng13) : Eng13 :=
  mkEng13 (g_cfg s) (g_cert s) (g_key s) (g_seq0 s) (g_rx s) (g_tx s) (g_suite s) (g_hs_send s) (g_hs_recv s) (g_hs_exp s) (g_epoch s) v (g_app_seq s) (g_app_send s) (g_prev s) (g_prev_epoch s) (g_prev_seq s) (g_recv s) (g_penc s) (g_client s) (g_peer_hs s) (g_next_hs s) (g_transcript s) (g_hs_replay s) (g_rrn s) (g_ackdl s) (g_sealed s) (g_saved s) (g_bo s) (g_flight s) (g_connect s) (g_release s) (g_exp s) (g_count s) (g_thr s) (g_needs s) (g_inflight s) (g_cn s) (g_cn_rep s) (g_orc s).
Definition set_g_app_seq (v : N) (s : Eng13) : Eng13 :=
  mkEng13 (g_cfg s) (g_cert s) (g_key s) (g_seq0 s) (g_rx s) (g_tx s) (g_suite s) (g_hs_send s) (g_hs_recv s) (g_hs_exp s) (g_epoch s) (g_hs_seq s) v (g_app_send s) (g_prev s) (g_prev_epoch s) (g_prev_seq s) (g_recv s) (g_penc s) (g_client s) (g_peer_hs s) (g_next_hs s) (g_transcript s) (g_hs_replay s) (g_rrn s) (g_ackdl s) (g_sealed s) (g_saved s) (g_bo s) (g_flight s) (g_connect s) (g_release s) (g_exp s) (g_count s) (g_thr s) (g_needs s) (g_inflight s) (g_cn s) (g_cn_rep s) (g_orc s).
Definition set_g_app_send (v : option Keys13) (s : Eng13) : Eng13 :=
  mkEng13 (g_cfg s) (g_cert s) (g_key s) (g_seq0 s) (g_rx s) (g_tx s) (g_suite s) (g_hs_send s) (g_hs_recv s) (g_hs_exp s) (g_epoch s) (g_hs_seq s) (g_app_seq s) v (g_prev s) (g_prev_epoch s) (g_prev_seq s) (g_recv s) (g_penc s) (g_client s) (g_peer_hs s) (g_next_hs s) (g_transcript s) (g_hs_replay s) (g_rrn s) (g_ackdl s) (g_sealed s) (g_saved s) (g_bo s) (g_flight s) (g_connect s) (g_release s) (g_exp s) (g_count s) (g_thr s) (g_needs s) (g_inflight s) (g_cn s) (g_cn_rep s) (g_orc s).
Definition set_g_prev (v : option Keys13) (s : Eng13) : Eng13 :=
  mkEng13 (g_cfg s) (g_cert s) (g_key s) (g_seq0 s) (g_rx s) (g_tx s) (g_suite s) (g_hs_send s) (g_hs_recv s) (g_hs_exp s) (g_epoch s) (g_hs_seq s) (g_app_seq s) (g_app_send s) v (g_prev_epoch s) (g_prev_seq s) (g_recv s) (g_penc s) (g_client s) (g_peer_hs s) (g_next_hs s) (g_transcript s) (g_hs_replay s) (g_rrn s) (g_ackdl s) (g_sealed s) (g_saved s) (g_bo s) (g_flight s) (g_connect s) (g_release s) (g_exp s) (g_count s) (g_thr s) (g_needs s) (g_inflight s) (g_cn s) (g_cn_rep s) (g_orc s).
Definition set_g_prev_epoch (v : N) (s : Eng13) : Eng13 :=
  mkEng13 (g_cfg s) (g_cert s) (g_key s) (g_seq0 s) (g_rx s) (g_tx s) (g_suite s) (g_hs_send s) (g_hs_recv s) (g_hs_exp s) (g_epoch s) (g_hs_seq s) (g_app_seq s) (g_app_send s) (g_prev s) v (g_prev_seq s) (g_recv s) (g_penc s) (g_client s) (g_peer_hs s) (g_next_hs s) (g_transcript s) (g_hs_replay s) (g_rrn s) (g_ackdl s) (g_sealed s) (g_saved s) (g_bo s) (g_flight s) (g_connect s) (g_release s) (g_exp s) (g_count s) (g_thr s) (g_needs s) (g_inflight s) (g_cn s) (g_cn_rep s) (g_orc s).
Definition set_g_prev_seq (v : N) (s : Eng13) : Eng13 :=
  mkEng13 (g_cfg s) (g_cert s) (g_key s) (g_seq0 s) (g_rx s) (g_tx s) (g_suite s) (g_hs_send s) (g_hs_recv s) (g_hs_exp s) (g_epoch s) (g_hs_seq s) (g_app_seq s) (g_app_send s) (g_prev s) (g_prev_epoch s) v (g_recv s) (g_penc s) (g_client s) (g_peer_hs s) (g_next_hs s) (g_transcript s) (g_hs_replay s) (g_rrn s) (g_ackdl s) (g_sealed s) (g_saved s) (g_bo s) (g_flight s) (g_connect s) (g_release s) (g_exp s) (g_count s) (g_thr s) (g_needs s) (g_inflight s) (g_cn s) (g_cn_rep s) (g_orc s).
Definition set_g_recv (v : list Recv13) (s : Eng13) : Eng13 :=
  mkEng13 (g_cfg s) (g_cert s) (g_key s) (g_seq0 s) (g_rx s) (g_tx s) (g_suite s) (g_hs_send s) (g_hs_recv s) (g_hs_exp s) (g_epoch s) (g_hs_seq s) (g_app_seq s) (g_app_send s) (g_prev s) (g_prev_epoch s) (g_prev_seq s) v (g_penc s) (g_client s) (g_peer_hs s) (g_next_hs s) (g_transcript s) (g_hs_replay s) (g_rrn s) (g_ackdl s) (g_sealed s) (g_saved s) (g_bo s) (g_flight s) (g_connect s) (g_release s) (g_exp s) (g_count s) (g_thr s) (g_needs s) (g_inflight s) (g_cn s) (g_cn_rep s) (g_orc s).
Definition set_g_penc (v : bool) (s : Eng13) : Eng13 :=
  mkEng13 (g_cfg s) (g_cert s) (g_key s) (g_seq0 s) (g_rx s) (g_tx s) (g_suite s) (g_hs_send s) (g_hs_recv s) (g_hs_exp s) (g_epoch s) (g_hs_seq s) (g_app_seq s) (g_app_send s) (g_prev s) (g_prev_epoch s) (g_prev_seq s) (g_recv s) v (g_client s) (g_peer_hs s) (g_next_hs s) (g_transcript s) (g_hs_replay s) (g_rrn s) (g_ackdl s) (g_sealed s) (g_saved s) (g_bo s) (g_flight s) (g_connect s) (g_release s) (g_exp s) (g_count s) (g_thr s) (g_needs s) (g_inflight s) (g_cn s) (g_cn_rep s) (g_orc s).
Definition set_g_client (v : bool) (s : Eng13) : Eng13 :=
  mkEng13 (g_cfg s) (g_cert s) (g_key s) (g_seq0 s) (g_rx s) (g_tx s) (g_suite s) (g_hs_send s) (g_hs_recv s) (g_hs_exp s) (g_epoch s) (g_hs_seq s) (g_app_seq s) (g_app_send s) (g_prev s) (g_prev_epoch s) (g_prev_seq s) (g_recv s) (g_penc s) v (g_peer_hs s) (g_next_hs s) (g_transcript s) (g_hs_replay s) (g_rrn s) (g_ackdl s) (g_sealed s) (g_saved s) (g_bo s) (g_flight s) (g_connect s) (g_release s) (g_exp s) (g_count s) (g_thr s) (g_needs s) (g_inflight s) (g_cn s) (g_cn_rep s) (g_orc s).
Definition set_g_peer_hs (v : N) (s : Eng13) : Eng13 :=
  mkEng13 (g_cfg s) (g_cert s) (g_key s) (g_seq0 s) (g_rx s) (g_tx s) (g_suite s) (g_hs_send s) (g_hs_recv s) (g_hs_exp s) (g_epoch s) (g_hs_seq s) (g_app_seq s) (g_app_send s) (g_prev s) (g_prev_epoch s) (g_prev_seq s) (g_recv s) (g_penc s) (g_client s) v (g_next_hs s) (g_transcript s) (g_hs_replay s) (g_rrn s) (g_ackdl s) (g_sealed s) (g_saved s) (g_bo s) (g_flight s) (g_connect s) (g_release s) (g_exp s) (g_count s) (g_thr s) (g_needs s) (g_inflight s) (g_cn s) (g_cn_rep s) (g_orc s).
Definition set_g_next_hs (v : N) (s : Eng13) : Eng13 :=
  mkEng13 (g_cfg s) (g_cert s) (g_key s) (g_seq0 s) (g_rx s) (g_tx s) (g_suite s) (g_hs_send s) (g_hs_recv s) (g_hs_exp s) (g_epoch s) (g_hs_seq s) (g_app_seq s) (g_app_send s) (g_prev s) (g_prev_epoch s) (g_prev_seq s) (g_recv s) (g_penc s) (g_client s) (g_peer_hs s) v (g_transcript s) (g_hs_replay s) (g_rrn s) (g_ackdl s) (g_sealed s) (g_saved s) (g_bo s) (g_flight s) (g_connect s) (g_release s) (g_exp s) (g_count s) (g_thr s) (g_needs s) (g_inflight s) (g_cn s) (g_cn_rep s) (g_orc s).
Definition set_g_transcript (v : bytes) (s : Eng13) : Eng13 :=
  mkEng13 (g_cfg s) (g_cert s) (g_key s) (g_seq0 s) (g_rx s) (g_tx s) (g_suite s) (g_hs_send s) (g_hs_recv s) (g_hs_exp s) (g_epoch s) (g_hs_seq s) (g_app_seq s) (g_app_send s) (g_prev s) (g_prev_epoch s) (g_prev_seq s) (g_recv s) (g_penc s) (g_client s) (g_peer_hs s) (g_next_hs s) v (g_hs_replay s) (g_rrn s) (g_ackdl s) (g_sealed s) (g_saved s) (g_bo s) (g_flight s) (g_connect s) (g_release s) (g_exp s) (g_count s) (g_thr s) (g_needs s) (g_inflight s) (g_cn s) (g_cn_rep s) (g_orc s).
Definition set_g_hs_replay (v : ReplayWindow) (s : Eng13) : Eng13 :=
  mkEng13 (g_cfg s) (g_cert s) (g_key s) (g_seq0 s) (g_rx s) (g_tx s) (g_suite s) (g_hs_send s) (g_hs_recv s) (g_hs_exp s) (g_epoch s) (g_hs_seq s) (g_app_seq s) (g_app_send s) (g_prev s) (g_prev_epoch s) (g_prev_seq s) (g_recv s) (g_penc s) (g_client s) (g_peer_hs s) (g_next_hs s) (g_transcript s) v (g_rrn s) (g_ackdl s) (g_sealed s) (g_saved s) (g_bo s) (g_flight s) (g_connect s) (g_release s) (g_exp s) (g_count s) (g_thr s) (g_needs s) (g_inflight s) (g_cn s) (g_cn_rep s) (g_orc s).
Definition set_g_rrn (v : list (N * N)) (s : Eng13) : Eng13 :=
  mkEng13 (g_cfg s) (g_cert s) (g_key s) (g_seq0 s) (g_rx s) (g_tx s) (g_suite s) (g_hs_send s) (g_hs_recv s) (g_hs_exp s) (g_epoch s) (g_hs_seq s) (g_app_seq s) (g_app_send s) (g_prev s) (g_prev_epoch s) (g_prev_seq s) (g_recv s) (g_penc s) (g_client s) (g_peer_hs s) (g_next_hs s) (g_transcript s) (g_hs_replay s) v (g_ackdl s) (g_sealed s) (g_saved s) (g_bo s) (g_flight s) (g_connect s) (g_release s) (g_exp s) (g_count s) (g_thr s) (g_needs s) (g_inflight s) (g_cn s) (g_cn_rep s) (g_orc s).
Definition set_g_ackdl (v : option N) (s : Eng13) : Eng13 :=
  mkEng13 (g_cfg s) (g_cert s) (g_key s) (g_seq0 s) (g_rx s) (g_tx s) (g_suite s) (g_hs_send s) (g_hs_recv s) (g_hs_exp s) (g_epoch s) (g_hs_seq s) (g_app_seq s) (g_app_send s) (g_prev s) (g_prev_epoch s) (g_prev_seq s) (g_recv s) (g_penc s) (g_client s) (g_peer_hs s) (g_next_hs s) (g_transcript s) (g_hs_replay s) (g_rrn s) v (g_sealed s) (g_saved s) (g_bo s) (g_flight s) (g_connect s) (g_release s) (g_exp s) (g_count s) (g_thr s) (g_needs s) (g_inflight s) (g_cn s) (g_cn_rep s) (g_orc s).
Definition set_g_sealed (v : bool) (s : Eng13) : Eng13 :=
  mkEng13 (g_cfg s) (g_cert s) (g_key s) (g_seq0 s) (g_rx s) (g_tx s) (g_suite s) (g_hs_send s) (g_hs_recv s) (g_hs_exp s) (g_epoch s) (g_hs_seq s) (g_app_seq s) (g_app_send s) (g_prev s) (g_prev_epoch s) (g_prev_seq s) (g_recv s) (g_penc s) (g_client s) (g_peer_hs s) (g_next_hs s) (g_transcript s) (g_hs_replay s) (g_rrn s) (g_ackdl s) v (g_saved s) (g_bo s) (g_flight s) (g_connect s) (g_release s) (g_exp s) (g_count s) (g_thr s) (g_needs s) (g_inflight s) (g_cn s) (g_cn_rep s) (g_orc s).
Definition set_g_saved (v : list Entry13) (s : Eng13) : Eng13 :=
  mkEng13 (g_cfg s) (g_cert s) (g_key s) (g_seq0 s) (g_rx s) (g_tx s) (g_suite s) (g_hs_send s) (g_hs_recv s) (g_hs_exp s) (g_epoch s) (g_hs_seq s) (g_app_seq s) (g_app_send s) (g_prev s) (g_prev_epoch s) (g_prev_seq s) (g_recv s) (g_penc s) (g_client s) (g_peer_hs s) (g_next_hs s) (g_transcript s) (g_hs_replay s) (g_rrn s) (g_ackdl s) (g_sealed s) v (g_bo s) (g_flight s) (g_connect s) (g_release s) (g_exp s) (g_count s) (g_thr s) (g_needs s) (g_inflight s) (g_cn s) (g_cn_rep s) (g_orc s).
Definition set_g_bo (v : Backoff) (s : Eng13) : Eng13 :=
  mkEng13 (g_cfg s) (g_cert s) (g_key s) (g_seq0 s) (g_rx s) (g_tx s) (g_suite s) (g_hs_send s) (g_hs_recv s) (g_hs_exp s) (g_epoch s) (g_hs_seq s) (g_app_seq s) (g_app_send s) (g_prev s) (g_prev_epoch s) (g_prev_seq s) (g_recv s) (g_penc s) (g_client s) (g_peer_hs s) (g_next_hs s) (g_transcript s) (g_hs_replay s) (g_rrn s) (g_ackdl s) (g_sealed s) (g_saved s) v (g_flight s) (g_connect s) (g_release s) (g_exp s) (g_count s) (g_thr s) (g_needs s) (g_inflight s) (g_cn s) (g_cn_rep s) (g_orc s).
Definition set_g_flight (v : Timeout) (s : Eng13) : Eng13 :=
  mkEng13 (g_cfg s) (g_cert s) (g_key s) (g_seq0 s) (g_rx s) (g_tx s) (g_suite s) (g_hs_send s) (g_hs_recv s) (g_hs_exp s) (g_epoch s) (g_hs_seq s) (g_app_seq s) (g_app_send s) (g_prev s) (g_prev_epoch s) (g_prev_seq s) (g_recv s) (g_penc s) (g_client s) (g_peer_hs s) (g_next_hs s) (g_transcript s) (g_hs_replay s) (g_rrn s) (g_ackdl s) (g_sealed s) (g_saved s) (g_bo s) v (g_connect s) (g_release s) (g_exp s) (g_count s) (g_thr s) (g_needs s) (g_inflight s) (g_cn s) (g_cn_rep s) (g_orc s).
Definition set_g_connect (v : Timeout) (s : Eng13) : Eng13 :=
  mkEng13 (g_cfg s) (g_cert s) (g_key s) (g_seq0 s) (g_rx s) (g_tx s) (g_suite s) (g_hs_send s) (g_hs_recv s) (g_hs_exp s) (g_epoch s) (g_hs_seq s) (g_app_seq s) (g_app_send s) (g_prev s) (g_prev_epoch s) (g_prev_seq s) (g_recv s) (g_penc s) (g_client s) (g_peer_hs s) (g_next_hs s) (g_transcript s) (g_hs_replay s) (g_rrn s) (g_ackdl s) (g_sealed s) (g_saved s) (g_bo s) (g_flight s) v (g_release s) (g_exp s) (g_count s) (g_thr s) (g_needs s) (g_inflight s) (g_cn s) (g_cn_rep s) (g_orc s).
Definition set_g_release (v : bool) (s : Eng13) : Eng13 :=
  mkEng13 (g_cfg s) (g_cert s) (g_key s) (g_seq0 s) (g_rx s) (g_tx s) (g_suite s) (g_hs_send s) (g_hs_recv s) (g_hs_exp s) (g_epoch s) (g_hs_seq s) (g_app_seq s) (g_app_send s) (g_prev s) (g_prev_epoch s) (g_prev_seq s) (g_recv s) (g_penc s) (g_client s) (g_peer_hs s) (g_next_hs s) (g_transcript s) (g_hs_replay s) (g_rrn s) (g_ackdl s) (g_sealed s) (g_saved s) (g_bo s) (g_flight s) (g_connect s) v (g_exp s) (g_count s) (g_thr s) (g_needs s) (g_inflight s) (g_cn s) (g_cn_rep s) (g_orc s).
Definition set_g_exp (v : option bytes) (s : Eng13) : Eng13 :=
  mkEng13 (g_cfg s) (g_cert s) (g_key s) (g_seq0 s) (g_rx s) (g_tx s) (g_suite s) (g_hs_send s) (g_hs_recv s) (g_hs_exp s) (g_epoch s) (g_hs_seq s) (g_app_seq s) (g_app_send s) (g_prev s) (g_prev_epoch s) (g_prev_seq s) (g_recv s) (g_penc s) (g_client s) (g_peer_hs s) (g_next_hs s) (g_transcript s) (g_hs_replay s) (g_rrn s) (g_ackdl s) (g_sealed s) (g_saved s) (g_bo s) (g_flight s) (g_connect s) (g_release s) v (g_count s) (g_thr s) (g_needs s) (g_inflight s) (g_cn s) (g_cn_rep s) (g_orc s).
Definition set_g_count (v : N) (s : Eng13) : Eng13 :=
  mkEng13 (g_cfg s) (g_cert s) (g_key s) (g_seq0 s) (g_rx s) (g_tx s) (g_suite s) (g_hs_send s) (g_hs_recv s) (g_hs_exp s) (g_epoch s) (g_hs_seq s) (g_app_seq s) (g_app_send s) (g_prev s) (g_prev_epoch s) (g_prev_seq s) (g_recv s) (g_penc s) (g_client s) (g_peer_hs s) (g_next_hs s) (g_transcript s) (g_hs_replay s) (g_rrn s) (g_ackdl s) (g_sealed s) (g_saved s) (g_bo s) (g_flight s) (g_connect s) (g_release s) (g_exp s) v (g_thr s) (g_needs s) (g_inflight s) (g_cn s) (g_cn_rep s) (g_orc s).
Definition set_g_thr (v : N) (s : Eng13) : Eng13 :=
  mkEng13 (g_cfg s) (g_cert s) (g_key s) (g_seq0 s) (g_rx s) (g_tx s) (g_suite s) (g_hs_send s) (g_hs_recv s) (g_hs_exp s) (g_epoch s) (g_hs_seq s) (g_app_seq s) (g_app_send s) (g_prev s) (g_prev_epoch s) (g_prev_seq s) (g_recv s) (g_penc s) (g_client s) (g_peer_hs s) (g_next_hs s) (g_transcript s) (g_hs_replay s) (g_rrn s) (g_ackdl s) (g_sealed s) (g_saved s) (g_bo s) (g_flight s) (g_connect s) (g_release s) (g_exp s) (g_count s) v (g_needs s) (g_inflight s) (g_cn s) (g_cn_rep s) (g_orc s).
Definition set_g_needs (v : bool) (s : Eng13) : Eng13 :=
  mkEng13 (g_cfg s) (g_cert s) (g_key s) (g_seq0 s) (g_rx s) (g_tx s) (g_suite s) (g_hs_send s) (g_hs_recv s) (g_hs_exp s) (g_epoch s) (g_hs_seq s) (g_app_seq s) (g_app_send s) (g_prev s) (g_prev_epoch s) (g_prev_seq s) (g_recv s) (g_penc s) (g_client s) (g_peer_hs s) (g_next_hs s) (g_transcript s) (g_hs_replay s) (g_rrn s) (g_ackdl s) (g_sealed s) (g_saved s) (g_bo s) (g_flight s) (g_connect s) (g_release s) (g_exp s) (g_count s) (g_thr s) v (g_inflight s) (g_cn s) (g_cn_rep s) (g_orc s).
Definition set_g_inflight (v : bool) (s : Eng13) : Eng13 :=
  mkEng13 (g_cfg s) (g_cert s) (g_key s) (g_seq0 s) (g_rx s) (g_tx s) (g_suite s) (g_hs_send s) (g_hs_recv s) (g_hs_exp s) (g_epoch s) (g_hs_seq s) (g_app_seq s) (g_app_send s) (g_prev s) (g_prev_epoch s) (g_prev_seq s) (g_recv s) (g_penc s) (g_client s) (g_peer_hs s) (g_next_hs s) (g_transcript s) (g_hs_replay s) (g_rrn s) (g_ackdl s) (g_sealed s) (g_saved s) (g_bo s) (g_flight s) (g_connect s) (g_release s) (g_exp s) (g_count s) (g_thr s) (g_needs s) v (g_cn s) (g_cn_rep s) (g_orc s).
Definition set_g_cn (v : option (N * N)) (s : Eng13) : Eng13 :=
  mkEng13 (g_cfg s) (g_cert s) (g_key s) (g_seq0 s) (g_rx s) (g_tx s) (g_suite s) (g_hs_send s) (g_hs_recv s) (g_hs_exp s) (g_epoch s) (g_hs_seq s) (g_app_seq s) (g_app_send s) (g_prev s) (g_prev_epoch s) (g_prev_seq s) (g_recv s) (g_penc s) (g_client s) (g_peer_hs s) (g_next_hs s) (g_transcript s) (g_hs_replay s) (g_rrn s) (g_ackdl s) (g_sealed s) (g_saved s) (g_bo s) (g_flight s) (g_connect s) (g_release s) (g_exp s) (g_count s) (g_thr s) (g_needs s) (g_inflight s) v (g_cn_rep s) (g_orc s).
Definition set_g_cn_rep (v : bool) (s : Eng13) : Eng13 :=
  mkEng13 (g_cfg s) (g_cert s) (g_key s) (g_seq0 s) (g_rx s) (g_tx s) (g_suite s) (g_hs_send s) (g_hs_recv s) (g_hs_exp s) (g_epoch s) (g_hs_seq s) (g_app_seq s) (g_app_send s) (g_prev s) (g_prev_epoch s) (g_prev_seq s) (g_recv s) (g_penc s) (g_client s) (g_peer_hs s) (g_next_hs s) (g_transcript s) (g_hs_replay s) (g_rrn s) (g_ackdl s) (g_sealed s) (g_saved s) (g_bo s) (g_flight s) (g_connect s) (g_release s) (g_exp s) (g_count s) (g_thr s) (g_needs s) (g_inflight s) (g_cn s) v (g_orc s).
Definition set_g_orc (v : N) (s : Eng13) : Eng13 :=
  mkEng13 (g_cfg s) (g_cert s) (g_key s) (g_seq0 s) (g_rx s) (g_tx s) (g_suite s) (g_hs_send s) (g_hs_recv s) (g_hs_exp s) (g_epoch s) (g_hs_seq s) (g_app_seq s) (g_app_send s) (g_prev s) (g_prev_epoch s) (g_prev_seq s) (g_recv s) (g_penc s) (g_client s) (g_peer_hs s) (g_next_hs s) (g_transcript s) (g_hs_replay s) (g_rrn s) (g_ackdl s) (g_sealed s) (g_saved s) (g_bo s) (g_flight s) (g_connect s) (g_release s) (g_exp s) (g_count s) (g_thr s) (g_needs s) (g_inflight s) (g_cn s) (g_cn_rep s) v.

Definition MAX_SEQ : N := 2 ^ 48 - 1. (* src/dtls13/engine.rs:37 *)

Notation GM := (M Eng13).

Section Engine13.
Variable E : Env.

(** A draw from the random number generator. *)
Definition draw13 : GM N :=
  fun s => (Ok (g_orc s), set_g_orc (g_orc s + 1) s).
Definition rand_bytes13 (n : nat) : GM bytes := let! t := draw13 in ret (e_rand E t n).

(** src/dtls13/engine.rs:2264-2271 [jittered_aead_threshold]; draw [t] *)
Definition jittered_threshold (limit t : N) : N :=
  let quarter := limit / 4 in
  if quarter =? 0 then limit
  else limit - quarter + e_threshold E t (quarter + 1) mod (quarter + 1).

(** src/dtls13/engine.rs:199-266 [new]: the back-off draws its jitter, then the
    threshold is drawn (when the quarter is not 0; a draw is counted in any case). *)
Definition eng13_new (cfg : Config) (cert : bytes) (key : KeyInfo) (is_client : bool) : Eng13 :=
  mkEng13 cfg cert key 0 [] [] None None None 0 3 0 0 None None 0 0 [] false is_client 0 0 []
    window_new [] None false [] (backoff_new (c_rto cfg) (c_retries cfg) (e_jitter E 0))
    Unarmed Unarmed false None 0 (jittered_threshold (c_aead_limit cfg) 1) false false None false 2.

(** src/dtls13/engine.rs:285-293 [inject_hybrid_client_hello] *)
Definition inject_hybrid (transcript : bytes) : GM unit :=
  modify (fun s => set_g_seq0 (if g_seq0 s <? MAX_SEQ then g_seq0 s + 1 else g_seq0 s)
    (set_g_next_hs 1 (set_g_transcript (g_transcript s ++ transcript) s))).

(** src/dtls13/engine.rs:317-324 [needs_key_update]: reads and clears the flag *)
Definition take_needs_key_update : GM bool :=
  let! s := get in
  modify (set_g_needs false) ;;; ret (g_needs s).

(** src/dtls13/engine.rs:326-330 [is_cipher_suite_allowed] *)
Definition suite13_allowed (s : Eng13) (cs : N) : bool := memN cs (cfg_suites13 E (g_cfg s)).

(** src/dtls13/engine.rs:1604-1607 [hash_algorithm], 1609-1618 [suite_provider]; both
    panic when no suite is set *)
Definition hash_alg13 : GM N :=
  let! s := get in
  match g_suite s with None => panic 1606 | Some cs => ret (suite13_hash cs) end.
Definition suite_provider13 : GM Suite13Info :=
  let! s := get in
  match g_suite s with
  | None => panic 1610
  | Some cs => match find13 E cs with None => panic 1617 | Some i => ret i end
  end.

(** ** Record lookup, src/dtls13/engine.rs:2381-2462 *)

Definition find_recv (ep : N) (l : list Recv13) : option Recv13 :=
  find (fun e => re_epoch e =? ep) l.

(** The last entry whose epoch has these two low bits. *)
Fixpoint newest_match (bits : N) (l : list Recv13) (best : option N) : option N :=
  match l with
  | [] => best
  | e :: r => newest_match bits r (if N.land (re_epoch e) 3 =? bits then Some (re_epoch e) else best)
  end.

Definition is_some {A} (o : option A) : bool := match o with Some _ => true | None => false end.

(** src/dtls13/engine.rs:2381-2410 [resolve_epoch] *)
Definition resolve_epoch (s : Eng13) (bits : N) : N :=
  if is_some (g_hs_recv s) && (bits =? 2) && negb (g_release s) then 2
  else match newest_match bits (g_recv s) None with
       | Some ep => ep
       | None => bits
       end.

(** src/dtls13/engine.rs:2412-2425 [resolve_sequence] *)
Definition resolve_sequence (s : Eng13) (ep partial : N) (s_flag : bool) : N :=
  let expected := if ep =? 2 then g_hs_exp s
                  else match find_recv ep (g_recv s) with Some e => re_exp e | None => 0 end in
  reconstruct_sequence partial expected (if s_flag then 16 else 8).

(** src/dtls13/engine.rs:2427-2437 [replay_check] *)
Definition replay_check13 (s : Eng13) (ep sq : N) : bool :=
  if ep =? 2 then window_check (g_hs_replay s) sq
  else match find_recv ep (g_recv s) with
       | Some e => window_check (re_win e) sq
       | None => false
       end.

(** Update the first entry with this epoch. *)
Fixpoint upd_recv (ep : N) (f : Recv13 -> Recv13) (l : list Recv13) : list Recv13 :=
  match l with
  | [] => []
  | e :: r => if re_epoch e =? ep then f e :: r else e :: upd_recv ep f r
  end.
Definition note_seq (sq : N) (e : Recv13) : Recv13 :=
  mkRecv13 (re_epoch e) (re_keys e) (if re_exp e <? sq + 1 then sq + 1 else re_exp e)
    (window_update (re_win e) sq).

(** src/dtls13/engine.rs:2439-2463 [replay_update] *)
Definition replay_update13 (ep sq : N) (s : Eng13) : Eng13 :=
  if ep =? 2 then
    set_g_hs_exp (if g_hs_exp s <? sq + 1 then sq + 1 else g_hs_exp s)
      (set_g_hs_replay (window_update (g_hs_replay s) sq) s)
  else set_g_recv (upd_recv ep (note_seq sq) (g_recv s)) s.

(** The receive keys of an epoch, src/dtls13/engine.rs:2476-2484, 2512-2519 *)
Definition recv_keys13 (s : Eng13) (ep : N) : option Keys13 :=
  if ep =? 2 then g_hs_recv s
  else match find_recv ep (g_recv s) with Some e => Some (re_keys e) | None => None end.

(** ** Receiving a record *)

(** src/dtls13/incoming.rs:190-216 and src/dtls13/engine.rs:2505-2529
    [decrypt_sequence_number]: remove the record number encryption in place. *)
Definition unmask13 (raw : bytes) : GM bytes :=
  let b := hd 0 raw in
  let! s := get in
  if Nat.leb (uhdr_len b + 16) (length raw) then
    match recv_keys13 s (resolve_epoch s (N.land b 3)) with
    | None => ret raw
    | Some k =>
      let! i := suite_provider13 in
      let sample := firstn 16 (skipn (uhdr_len b) raw) in
      ret (xor_seq (seq_len b) (e_mask E (s13_id i) (ek_sn k) sample) raw)
    end
  else ret raw.

(** src/dtls13/incoming.rs:177-308 [Record::parse] of one record's bytes.  The
    buffer of a decrypted record is the header, the plaintext and what in-place
    decryption leaves behind it; it is read again only by
    [enable_peer_encryption13]. *)
Definition rec_parse13 (raw : bytes) : GM (option Rec12) :=
  let b := hd 0 raw in
  let ct := is_ct_header b in
  let! s := get in
  let! buf := if ct && g_penc s then unmask13 raw else ret raw in
  match p_parsed13 buf with
  | None => ret None
  | Some (r, header_end) =>
    if negb ct || negb (g_penc s) then ret (Some r)
    else
      let ep := resolve_epoch s (r_epoch r) in
      let sq := resolve_sequence s ep (r_seq r) (flag_s b) in
      if negb (replay_check13 s ep sq) then ret None
      else
        let! i := suite_provider13 in
        if Nat.ltb (length buf - header_end) (s13_tag i) then ret None
        else
          let hdr := firstn header_end buf in
          let body := skipn header_end buf in
          match recv_keys13 s ep with
          | None => ret None
          | Some k =>
            match e_open E (ek_suite k) (ek_key k) (nonce_xor (ek_iv k) sq) hdr body with
            | None => ret None
            | Some pt =>
              modify (replay_update13 ep sq) ;;;
              match inner_type pt with
              | None => ret None
              | Some (t, content) =>
                ret (Some (rec13_of t ep sq (u16 (len content)) content
                             (hdr ++ pt ++ skipn (length pt) body)))
              end
            end
          end
  end.

(** src/dtls13/incoming.rs:75-147: the boundary of the first record of a datagram *)
Inductive bound := BStop | BBad | BRec (n : nat).
Definition rec_bound13 (packet : bytes) : bound :=
  let b := hd 0 packet in
  let n := length packet in
  if is_ct_header b then
    if flag_c b then BStop
    else if Nat.ltb n 2 then BBad
    else if Nat.ltb n (uhdr_len b) then BBad
    else
      let e := if flag_l b
               then (uhdr_len b + N.to_nat (unbe (firstn 2 (skipn (1 + seq_len b) packet))))%nat
               else n in
      if Nat.ltb n e then BBad else BRec e
  else
    if Nat.ltb n 13 then BBad
    else
      let e := (13 + N.to_nat (unbe (firstn 2 (skipn 11 packet))))%nat in
      if Nat.ltb n e then BBad else BRec e.

(** src/dtls13/incoming.rs:75-147: split into records, at most 16 kept.  Every
    iteration consumes at least two bytes, so [fuel := length packet] is never
    exhausted (proved). *)
Fixpoint parse_loop13 (fuel : nat) (room : nat) (packet : bytes) : GM (list Rec12) :=
  match packet with
  | [] => ret []
  | _ :: _ =>
    match fuel with
    | O => panic 9003
    | S fuel' =>
      match rec_bound13 packet with
      | BStop => ret []
      | BBad => fail ETransient
      | BRec e =>
        let! o := rec_parse13 (firstn e packet) in
        match o with
        | None => parse_loop13 fuel' room (skipn e packet)
        | Some r =>
          match room with
          | O => fail ETransient
          | S room' =>
            let! rs := parse_loop13 fuel' room' (skipn e packet) in
            ret (r :: rs)
          end
        end
      end
    end
  end.

(** ** Sending *)

(** src/dtls13/engine.rs:915-921, 1072-1078 *)
Definition can_append13 (s : Eng13) (wire : N) : bool :=
  negb (g_sealed s) &&
  match rev (g_tx s) with
  | [] => false
  | b :: _ => len b + wire <=? c_mtu (g_cfg s)
  end.

Definition enqueue13 (app : bool) (rec : bytes) : GM unit :=
  if app then modify (fun s => set_g_tx (append_last rec (g_tx s)) s)
  else modify (fun s => set_g_tx (g_tx s ++ [rec]) (set_g_sealed false s)).

(** [flight_saved_records.push]: an [ArrayVec] of capacity 12 *)
Definition save13 (e : Entry13) : GM unit :=
  let! s := get in
  if Nat.leb 12 (length (g_saved s)) then panic 900
  else modify (fun s => set_g_saved (g_saved s ++ [e]) s).

(** src/dtls13/engine.rs:886-957 [create_plaintext_record] *)
Definition create_plain13 (ctype : N) (save : bool) (fragment : bytes) : GM unit :=
  let! s := get in
  when save (save13 (mkEntry13 ctype 0 (g_seq0 s) fragment false)) ;;;
  let app := can_append13 s (13 + len fragment) in
  if negb app && (c_max_tx (g_cfg s) <=? len (g_tx s)) then fail ETxFull
  else if MAX_SEQ <=? g_seq0 s then fail ECrypto
  else
    modify (fun s => set_g_seq0 (g_seq0 s + 1) s) ;;;
    enqueue13 app (s_plain13 ctype 0 (g_seq0 s) fragment).

(** The three send contexts, src/dtls13/engine.rs:978-984, 1010-1016 *)
Inductive send_ctx := CtxHs | CtxPrev | CtxApp.
Definition ctx13 (s : Eng13) (ep : N) : send_ctx :=
  if ep =? 2 then CtxHs
  else if is_some (g_prev s) && (ep =? g_prev_epoch s) then CtxPrev
  else CtxApp.
Definition ctx_seq (s : Eng13) (c : send_ctx) : N :=
  match c with CtxHs => g_hs_seq s | CtxPrev => g_prev_seq s | CtxApp => g_app_seq s end.
Definition ctx_keys (s : Eng13) (c : send_ctx) : option Keys13 :=
  match c with CtxHs => g_hs_send s | CtxPrev => g_prev s | CtxApp => g_app_send s end.

(** src/dtls13/engine.rs:1096-1124: advance the number; count application records
    against the threshold *)
Definition bump_seq (c : send_ctx) (ep : N) (s : Eng13) : Eng13 :=
  match c with
  | CtxHs => set_g_hs_seq (g_hs_seq s + 1) s
  | CtxPrev => set_g_prev_seq (g_prev_seq s + 1) s
  | CtxApp =>
    let s := set_g_app_seq (g_app_seq s + 1) s in
    if 3 <=? ep then
      let s := set_g_count (g_count s + 1) s in
      if g_thr s <=? g_count s then set_g_needs true s else s
    else s
  end.

(** src/dtls13/engine.rs:964-1140 [create_ciphertext_record] *)
Definition create_cipher13 (ctype ep : N) (save : bool) (fragment : bytes) : GM unit :=
  let! s := get in
  let c := ctx13 s ep in
  let sq := ctx_seq s c in
  when save (save13 (mkEntry13 ctype ep sq fragment false)) ;;;
  let inner := fragment ++ [ctype] in
  let! i := suite_provider13 in
  match ctx_keys s c with
  | None => fail ECrypto
  | Some k =>
    let hdr := s_uhdr13 ep sq (len inner + N.of_nat (s13_tag i)) in
    if Nat.ltb 32 (length (ek_sn k)) then panic 1046
    else
      match e_seal E (ek_suite k) (ek_key k) (nonce_xor (ek_iv k) sq) hdr inner with
      | None => fail ECrypto
      | Some body =>
        let mask := if Nat.leb 16 (length body)
                    then e_mask E (s13_id i) (ek_sn k) (firstn 16 body) else [] in
        let app := can_append13 s (5 + len body) in
        if negb app && (c_max_tx (g_cfg s) <=? len (g_tx s)) then fail ETxFull
        else if MAX_SEQ <=? sq then fail ECrypto
        else
          modify (bump_seq c ep) ;;;
          enqueue13 app (xor_seq 2 mask (s_rec13 CT_APP ep sq body))
      end
  end.

(** src/dtls13/engine.rs:2277-2282 [epoch_for_message] *)
Definition mt13_epoch (mt : N) : N :=
  if (mt =? MT_ClientHello) || (mt =? MT_ServerHello) then 0 else 2.

(** src/dtls13/engine.rs:1185-1243: the fragmentation loop.  [rest] is
    [body\[offset..\]].  A zero-length chunk of a non-empty body does not advance;
    the loop then ends by filling the flight record store (12 entries) or the send
    queue, so the fuel of [create_handshake13] is never exhausted (proved). *)
Fixpoint frag_loop13 (fuel : nat) (mt total seq ep prot offset : N) (rest : bytes) : GM unit :=
  match rest with
  | [] => ret tt
  | _ :: _ =>
    match fuel with
    | O => panic 9004
    | S fuel' =>
      let! s := get in
      let mtu := c_mtu (g_cfg s) in
      let used := match rev (g_tx s) with [] => 0 | b :: _ => len b end in
      let avail_cur := mtu - used in
      let fixed := (if ep =? 0 then 13 else 5) + 12 + prot in
      let avail := if fixed <? avail_cur then avail_cur - fixed else mtu - fixed in
      let chunk := N.min (len rest) avail in
      let n := N.to_nat chunk in
      let frag := s_hs_header mt total seq offset chunk ++ firstn n rest in
      (if ep =? 0 then create_plain13 CT_HS true frag else create_cipher13 CT_HS ep true frag) ;;;
      frag_loop13 fuel' mt total seq ep prot (offset + chunk) (skipn n rest)
    end
  end.

(** The transcript entry of a message, src/dtls13/engine.rs:1161-1166,
    src/dtls13/message/handshake.rs:254-258: no message_seq and no fragment fields *)
Definition transcript13 (mt total : N) (body : bytes) : bytes := be 1 mt ++ be 3 total ++ body.

(** src/dtls13/engine.rs:1143-1248 [create_handshake].  [mkbody] is the callback
    filling the body; it runs first and may fail. *)
Definition create_handshake13 (mt : N) (mkbody : GM bytes) : GM unit :=
  let! body := mkbody in
  let! s := get in
  let total := u32 (len body) in
  let seq := g_next_hs s in
  modify (fun s => set_g_transcript (g_transcript s ++ transcript13 mt total body) s) ;;;
  modify (fun s => set_g_next_hs (u16 (seq + 1)) s) ;;;
  let ep := mt13_epoch mt in
  let! prot := (if ep =? 0 then ret 0
                else let! i := suite_provider13 in ret (N.of_nat (s13_tag i) + 1)) in
  match body with
  | [] =>
    let frag := s_hs_header mt total seq 0 0 in
    if ep =? 0 then create_plain13 CT_HS true frag else create_cipher13 CT_HS ep true frag
  | _ :: _ => frag_loop13 (length body + 14) mt total seq ep prot 0 body
  end.

(** ** Flights and timers *)

(** src/dtls13/engine.rs:670-675 [flight_begin] *)
Definition flight_begin13 : GM unit :=
  let! t := draw13 in
  modify (fun s => set_g_flight Unarmed
            (set_g_saved [] (set_g_bo (backoff_reset (g_bo s) (e_jitter E t)) s))).

(** src/dtls13/engine.rs:677-681 [flight_stop_resend_timers] *)
Definition stop_timers13 : GM unit :=
  modify (fun s => set_g_connect Disabled (set_g_flight Disabled s)).

(** src/dtls13/engine.rs:689-737 [flight_resend]: acknowledged entries are skipped,
    the others get the number of their new record.  On error the saved records are
    lost ([mem::take]). *)
Fixpoint resend_loop13 (es : list Entry13) : GM (list Entry13) :=
  match es with
  | [] => ret []
  | e :: r =>
    if en13_acked e then let! r' := resend_loop13 r in ret (e :: r')
    else
      let! s := get in
      let sq := if en13_epoch e =? 0 then g_seq0 s else ctx_seq s (ctx13 s (en13_epoch e)) in
      (if en13_epoch e =? 0 then create_plain13 (en13_ctype e) false (en13_frag e)
       else create_cipher13 (en13_ctype e) (en13_epoch e) false (en13_frag e)) ;;;
      let! r' := resend_loop13 r in
      ret (mkEntry13 (en13_ctype e) (en13_epoch e) sq (en13_frag e) false :: r')
  end.
Definition flight_resend13 : GM unit :=
  let! s := get in
  modify (fun s => set_g_sealed true (set_g_saved [] s)) ;;;
  let! es := resend_loop13 (g_saved s) in
  modify (set_g_saved es).

(** ** Acknowledgements *)

(** src/dtls13/engine.rs:1309-1330 [send_ack_inner] *)
Definition send_ack_inner (save : bool) : GM unit :=
  let! s := get in
  match g_rrn s with
  | [] => ret tt
  | es =>
    modify (set_g_rrn []) ;;;
    create_cipher13 CT_ACK (if is_some (g_app_send s) then g_epoch s else 2) save (s_ack es)
  end.
(** src/dtls13/engine.rs:1292-1294 [send_ack], 1296-1301 [send_ack_retransmittable] *)
Definition send_ack13 : GM unit := send_ack_inner false.
Definition send_ack_retransmittable : GM unit :=
  let! s := get in
  when (negb (is_nil (g_rrn s))) (modify (set_g_saved [])) ;;;
  send_ack_inner true.

(** ** Key schedule, src/dtls13/engine.rs:1621-2010 *)

Definition label13 (h : N) (secret : bytes) (label : bytes) (ctx : bytes) (n : nat) : GM bytes :=
  of_opt ECrypto (hkdf_expand_label13 E h secret label ctx n).
Definition extract13 (h : N) (salt ikm : bytes) : GM bytes :=
  of_opt ECrypto (hkdf_extract E h salt ikm).

(** src/dtls13/engine.rs:1970-2019 [derive_epoch_keys]; [iv.copy_from_slice] panics
    when the length is not 12 *)
Definition derive_epoch_keys (secret : bytes) : GM Keys13 :=
  let! h := hash_alg13 in
  let! i := suite_provider13 in
  let! key := label13 h secret (str "key") [] (s13_key i) in
  let! iv := label13 h secret (str "iv") [] (s13_iv i) in
  let! sn := label13 h secret (str "sn") [] (s13_key i) in
  if negb (e_mkcipher E (s13_id i) key) then fail ECrypto
  else if negb (Nat.eqb (length iv) 12) then panic 2007
  else ret (mkKeys13 (s13_id i) key iv secret sn).

(** src/dtls13/engine.rs:2070-2079 [transcript_hash] *)
Definition transcript_hash13 : GM bytes :=
  let! h := hash_alg13 in
  let! s := get in
  ret (e_hash E h (g_transcript s)).

(** src/dtls13/engine.rs:1621-1690 [derive_early_secret],
    [derive_handshake_secrets]: client, server and handshake secret *)
Definition derive_handshake_secrets (shared : bytes) : GM (bytes * bytes * bytes) :=
  let! h := hash_alg13 in
  let z := repeat 0 (hash_len h) in
  let! early := extract13 h z z in
  let! derived := label13 h early (str "derived") (e_hash E h []) (hash_len h) in
  let! hs := extract13 h derived shared in
  let! th := transcript_hash13 in
  let! c := label13 h hs (str "c hs traffic") th (hash_len h) in
  let! sv := label13 h hs (str "s hs traffic") th (hash_len h) in
  ret (c, sv, hs).

(** src/dtls13/engine.rs:1692-1711 [install_handshake_keys] *)
Definition install_handshake_keys (c sv : bytes) : GM unit :=
  let! s := get in
  let '(snd_, rcv) := if g_client s then (c, sv) else (sv, c) in
  let! ks := derive_epoch_keys snd_ in
  modify (set_g_hs_send (Some ks)) ;;;
  let! kr := derive_epoch_keys rcv in
  modify (set_g_hs_recv (Some kr)) ;;;
  modify (set_g_hs_seq 0).

(** src/dtls13/engine.rs:1713-1790 [derive_application_secrets] *)
Definition derive_application_secrets (hs : bytes) : GM (bytes * bytes) :=
  let! h := hash_alg13 in
  let! derived := label13 h hs (str "derived") (e_hash E h []) (hash_len h) in
  let! master := extract13 h derived (repeat 0 (hash_len h)) in
  let! th := transcript_hash13 in
  let! exp := label13 h master (str "exp master") th (hash_len h) in
  let! c := label13 h master (str "c ap traffic") th (hash_len h) in
  let! sv := label13 h master (str "s ap traffic") th (hash_len h) in
  modify (set_g_exp (Some exp)) ;;;
  ret (c, sv).

(** [app_recv_keys.push]: an [ArrayVec] of capacity 4 *)
Definition push_recv (e : Recv13) : GM unit :=
  let! s := get in
  if Nat.leb 4 (length (g_recv s)) then panic 1816
  else modify (fun s => set_g_recv (g_recv s ++ [e]) s).

(** src/dtls13/engine.rs:1792-1820 [install_application_keys] *)
Definition install_application_keys (c sv : bytes) : GM unit :=
  let! s := get in
  let '(snd_, rcv) := if g_client s then (c, sv) else (sv, c) in
  let! ks := derive_epoch_keys snd_ in
  modify (set_g_app_send (Some ks)) ;;;
  let! kr := derive_epoch_keys rcv in
  push_recv (mkRecv13 3 kr 0 window_new) ;;;
  modify (fun s => set_g_app_seq 0 (set_g_epoch 3 s)).

(** src/dtls13/engine.rs:1822-1844 [derive_next_traffic_secret] *)
Definition derive_next_secret (cur : bytes) : GM bytes :=
  let! h := hash_alg13 in
  label13 h cur (str "traffic upd") [] (hash_len h).

(** src/dtls13/engine.rs:1846-1873 [update_send_keys]; the current keys are taken
    first and lost when a derivation fails *)
Definition update_send_keys : GM unit :=
  let! s := get in
  match g_app_send s with
  | None => fail EInvalidState
  | Some cur =>
    modify (set_g_app_send None) ;;;
    let! next := derive_next_secret (ek_secret cur) in
    let! ks := derive_epoch_keys next in
    modify (fun s => set_g_prev_seq (g_app_seq s) (set_g_prev_epoch (g_epoch s)
                       (set_g_prev (Some cur) s))) ;;;
    modify (fun s => set_g_count 0 (set_g_app_seq 0 (set_g_epoch (u16 (g_epoch s + 1))
                       (set_g_app_send (Some ks) s)))) ;;;
    let! t := draw13 in
    modify (fun s => set_g_needs false
              (set_g_thr (jittered_threshold (c_aead_limit (g_cfg s)) t) s))
  end.

(** src/dtls13/engine.rs:1875-1908 [update_recv_keys] *)
Definition update_recv_keys : GM unit :=
  let! s := get in
  match rev (g_recv s) with
  | [] => fail EInvalidState
  | latest :: _ =>
    let! next := derive_next_secret (ek_secret (re_keys latest)) in
    let! ks := derive_epoch_keys next in
    when (Nat.leb 4 (length (g_recv s))) (modify (fun s => set_g_recv (tl (g_recv s)) s)) ;;;
    push_recv (mkRecv13 (u16 (re_epoch latest + 1)) ks 0 window_new)
  end.

(** src/dtls13/engine.rs:1910-1951 [create_key_update] *)
Definition create_key_update (requested : bool) : GM unit :=
  flight_begin13 ;;;
  let! s := get in
  let seq := g_next_hs s in
  modify (set_g_next_hs (u16 (seq + 1))) ;;;
  create_cipher13 CT_HS (g_epoch s) true
    (s_hs_header MT_KeyUpdate 1 seq 0 1 ++ [if requested then 1 else 0]) ;;;
  modify (set_g_inflight true).

(** src/dtls13/engine.rs:2031-2064 [compute_verify_data] *)
Definition compute_verify_data (secret : bytes) : GM bytes :=
  let! h := hash_alg13 in
  let! fk := label13 h secret (str "finished") [] (hash_len h) in
  let! th := transcript_hash13 in
  extract13 h fk th.

(** src/dtls13/engine.rs:2101-2124 [replace_transcript_with_message_hash]; slicing
    panics when [split] is past the end *)
Definition replace_transcript (split : nat) : GM unit :=
  let! h := hash_alg13 in
  let! s := get in
  if Nat.ltb (length (g_transcript s)) split then panic 2108
  else
    let hv := e_hash E h (firstn split (g_transcript s)) in
    modify (fun s => set_g_transcript
      ([254] ++ be 3 (len hv) ++ hv ++ skipn split (g_transcript s)) s).

(** src/dtls13/engine.rs:1953-1966 [reset_for_hello_retry] *)
Definition first_handled (inc : list Rec12) : bool :=
  match inc with r :: _ => rec_handled r | [] => true end.
Definition reset_for_hello_retry : GM unit :=
  modify (fun s => set_g_rx (filter (fun it => negb (first_handled it)) (g_rx s))
            (set_g_ackdl None (set_g_hs_seq 0 s))).

(** src/dtls13/engine.rs:2193-2245 [extract_srtp_keying_material] *)
Definition extract_srtp13 (profile : N) : GM bytes :=
  let! h := hash_alg13 in
  let! s := get in
  match g_exp s with
  | None => fail ECrypto
  | Some exp =>
    let! d := label13 h exp (str "EXTRACTOR-dtls_srtp") (e_hash E h []) (hash_len h) in
    label13 h d (str "exporter") (e_hash E h []) (srtp_len profile)
  end.

(** ** Control records *)

Definition mark_acked (es : list (N * N)) (e : Entry13) : Entry13 :=
  if existsb (fun a => (en13_epoch e =? fst a) && (en13_seq e =? snd a)) es
  then mkEntry13 (en13_ctype e) (en13_epoch e) (en13_seq e) (en13_frag e) true else e.

(** src/dtls13/engine.rs:1333-1393 [process_ack] *)
Definition process_ack (data : bytes) : GM unit :=
  match p_ack data with
  | None => ret tt
  | Some es =>
    modify (fun s => set_g_saved (map (mark_acked es) (g_saved s)) s) ;;;
    let! s := get in
    let ep2 := filter (fun e => en13_epoch e =? 2) (g_saved s) in
    when (negb (is_nil ep2) && forallb en13_acked ep2)
      (modify (fun s => set_g_saved [] (set_g_flight Disabled s))) ;;;
    let! s := get in
    when (g_inflight s && negb (is_nil (g_saved s)) && forallb en13_acked (g_saved s))
      (update_send_keys ;;;
       modify (fun s => set_g_flight Disabled (set_g_saved [] (set_g_inflight false
                          (set_g_prev None s)))))
  end.

(** src/dtls13/engine.rs:2314-2375 [classify_record]: [None] drops the record *)
Definition classify_record13 (r : Rec12) : GM (option Rec12) :=
  let! s := get in
  if match g_cn s with
     | Some cn => match cmp_pair (r_epoch r, r_seq r) cn with Gt => true | _ => false end
     | None => false
     end then ret None
  else if (r_epoch r =? 0) && g_penc s && ((r_ctype r =? CT_ACK) || (r_ctype r =? CT_ALERT))
       then ret None
  else if r_ctype r =? CT_ACK then process_ack (r_frag r) ;;; ret None
  else if r_ctype r =? CT_ALERT then
    match nth_error (r_frag r) 1 with
    | None => ret None
    | Some d =>
      if d =? 0 then
        modify (fun s => match g_cn s with
                         | Some _ => s
                         | None => set_g_cn (Some (r_epoch r, r_seq r)) s
                         end) ;;; ret None
      else if d =? 90 then ret None
      else fail (EFatalAlert d)
    end
  else if r_ctype r =? CT_CCS then ret None
  else ret (Some r).

(** src/dtls13/incoming.rs:149-156 *)
Fixpoint classify_all13 (rs : list Rec12) : GM (list Rec12) :=
  match rs with
  | [] => ret []
  | r :: rest =>
    let! o := classify_record13 r in
    let! rest' := classify_all13 rest in
    ret (match o with Some r' => r' :: rest' | None => rest' end)
  end.

(** src/dtls13/incoming.rs:69-159 [Records::parse] *)
Definition records_parse13 (packet : bytes) : GM (list Rec12) :=
  let! rs := parse_loop13 (length packet) 16 packet in classify_all13 rs.

(** ** Receive queue *)

Definition bsearch13 (cs : list comparison) : GM (bool * nat) :=
  let! t := draw13 in ret (e_bsearch E t cs).

(** src/dtls13/engine.rs:415-423, 447-456: note the numbers of the handshake records
    of a queued datagram; [try_push] on a full vector of 32 is ignored *)
Definition note_rrn (acc : list (N * N)) (r : Rec12) : list (N * N) :=
  if (2 <=? r_epoch r) && (r_ctype r =? CT_HS) && Nat.ltb (length acc) 32
  then acc ++ [(r_epoch r, r_seq r)] else acc.

Definition frag_whole (r : Rec12) : option bool :=
  match first_hs r with Some h => Some (f_length h =? f_flen h) | None => None end.

Fixpoint set_nth {A} (i : nat) (x : A) (l : list A) : list A :=
  match l, i with
  | [], _ => []
  | _ :: r, O => x :: r
  | y :: r, S j => y :: set_nth j x r
  end.

(** src/dtls13/engine.rs:371-463 [insert_incoming_handshake] *)
Definition insert_handshake13 (inc : list Rec12) (r : Rec12) (h : Frag12) : GM unit :=
  let! s := get in
  let dupe := first_some (fun r => match first_hs r with
                                   | Some h => dupe_triggers_resend13 h
                                   | None => None
                                   end) inc in
  match dupe with
  | Some d => when (d <? g_peer_hs s) flight_resend13
  | None => ret tt
  end ;;;
  if f_seq h <? g_peer_hs s then ret tt
  else if g_release s && negb (f_type h =? MT_KeyUpdate) then fail ERenegotiation
  else
    let! (found, i) := bsearch13 (map (fun it => cmp_pair (hs_key it) (f_seq h, f_off h)) (g_rx s)) in
    if found then
      match nth_error (g_rx s) i with
      | Some (x :: _) =>
        if rec_handled x ||
           (match frag_whole x with Some b => negb b | None => false end &&
            match frag_whole r with Some b => b | None => false end)
        then modify (fun s => set_g_rx (set_nth i inc (g_rx s))
                                (set_g_rrn (fold_left note_rrn inc (g_rrn s)) s))
        else ret tt
      | _ => panic 430
      end
    else modify (fun s => set_g_rx (insert_at i inc (g_rx s))
                            (set_g_rrn (fold_left note_rrn inc (g_rrn s)) s)).

(** src/dtls13/engine.rs:465-485 [insert_incoming_non_handshake] *)
Definition insert_non_handshake13 (inc : list Rec12) (r : Rec12) : GM unit :=
  let! s := get in
  let! (found, i) :=
    bsearch13 (map (fun it => cmp_pair (rec_key it) (r_epoch r, r_seq r)) (g_rx s)) in
  if found then ret tt
  else modify (fun s => set_g_rx (insert_at i inc (g_rx s)) s).

(** src/dtls13/engine.rs:353-369 [insert_incoming] *)
Definition insert_incoming13 (inc : list Rec12) : GM unit :=
  let! s := get in
  if c_max_rx (g_cfg s) <=? len (g_rx s) then fail ERxFull
  else match inc with
       | [] => ret tt
       | r :: _ =>
         match first_hs r with
         | Some h => insert_handshake13 inc r h
         | None => insert_non_handshake13 inc r
         end
       end.

(** src/dtls13/engine.rs:343-351 [parse_packet], src/dtls13/incoming.rs:38-58 *)
Definition eng13_parse_packet (packet : bytes) : GM unit :=
  let! rs := records_parse13 packet in
  match rs with
  | [] => ret tt
  | _ :: _ => insert_incoming13 rs
  end.

(** src/dtls13/engine.rs:2130-2157 [enable_peer_encryption] *)
Fixpoint split_epoch2 (q : list (list Rec12)) : list (list Rec12) * list (list Rec12) :=
  match q with
  | [] => ([], [])
  | inc :: r =>
    if existsb (fun r => 2 <=? r_epoch r) inc then ([], q)
    else let '(a, b) := split_epoch2 r in (inc :: a, b)
  end.
Definition enable_peer_encryption13 : GM unit :=
  modify (set_g_penc true) ;;;
  let! s := get in
  let '(keep, again) := split_epoch2 (g_rx s) in
  modify (set_g_rx keep) ;;;
  iterM (fun r => eng13_parse_packet (r_buf r))
        (filter (fun r => negb (rec_handled r)) (concat again)).

(** ** Handshake messages *)

(** The unhandled fragments within the next 50 unhandled records,
    src/dtls13/engine.rs:743-750, 1414-1421, 1459-1466 *)
Definition pending_frags (s : Eng13) : list Frag12 :=
  skip_while f_handled (flat_map r_hs (firstn 50 (skip_while rec_handled (concat (g_rx s))))).

(** src/dtls13/engine.rs:742-791 [has_complete_handshake_with_seq] *)
Definition has_complete13 (s : Eng13) (wanted : N) : bool :=
  match pending_frags s with
  | [] => false
  | first :: _ =>
    if negb (f_seq first =? g_peer_hs s) then false
    else if negb (f_type first =? wanted) then false
    else match frags_scan (f_seq first) (f_length first) 0 (pending_frags s) with
         | ScanComplete => true
         | _ => false
         end
  end.

Record Msg13 := mkMsg13 { n_type : N; n_seq : N; n_body : Body13; n_raw : bytes }.

(** src/dtls13/engine.rs:793-864 [next_handshake], [next_handshake_with_options],
    [next_handshake_no_transcript] and src/dtls13/message/handshake.rs:159-281
    [defragment_with_options] *)
Definition next_handshake13_gen (unknown_ok transcript : bool) (wanted : N) : GM (option Msg13) :=
  let! s := get in
  if negb (has_complete13 s wanted) then ret None
  else
    match skip_while f_handled (all_frags (g_rx s)) with
    | [] => panic 170
    | first :: more =>
      let run := first :: take_while (same_msg first) more in
      if Nat.ltb 50 (length run) then fail ETransient
      else
        let buffer := assemble_run13 run in
        if negb (len buffer =? f_length first) then fail ETransient
        else
          match p_body13 unknown_ok (f_type first) (g_suite s) buffer with
          | None =>
            modify (fun s => set_g_rx (mark_run (g_rx s)) s) ;;; fail ETransient
          | Some (body, rest) =>
            modify (fun s => set_g_rx (mark_run (g_rx s)) s) ;;;
            if negb (is_nil rest) && mt13_known (f_type first) then fail ETransient
            else
              when transcript (modify (fun s => set_g_transcript
                (g_transcript s ++ transcript13 (f_type first) (f_length first) buffer) s)) ;;;
              ret (Some (mkMsg13 (f_type first) (f_seq first) body buffer))
          end
    end.
Definition next_handshake13 (wanted : N) := next_handshake13_gen false true wanted.
Definition next_client_hello_auto := next_handshake13_gen true true MT_ClientHello.
Definition next_handshake13_no_transcript (wanted : N) := next_handshake13_gen false false wanted.

(** src/dtls13/engine.rs:871-873 [advance_peer_handshake_seq] *)
Definition advance_peer : GM unit :=
  modify (fun s => set_g_peer_hs (u16 (g_peer_hs s + 1)) s).

(** ** Handshake ACK scheduling, src/dtls13/engine.rs:1403-1580 *)

Definition handshake_in_progress (s : Eng13) : bool :=
  is_some (g_hs_send s) && negb (is_some (g_app_send s)) && negb (g_release s).
(** src/dtls13/engine.rs:1413-1450 [handshake_ack_help_needed] *)
Definition ack_help_needed (s : Eng13) : bool :=
  match pending_frags s with
  | [] => false
  | first :: _ =>
    if negb (f_seq first =? g_peer_hs s) then true
    else match frags_scan (f_seq first) (f_length first) 0 (pending_frags s) with
         | ScanComplete => false
         | _ => true
         end
  end.
(** src/dtls13/engine.rs:1458-1498 [has_gap_in_incoming_handshake] *)
Definition has_gap (s : Eng13) : bool :=
  match pending_frags s with
  | [] => false
  | first :: _ =>
    if negb (f_seq first =? g_peer_hs s) then true
    else match frags_scan (f_seq first) (f_length first) 0 (pending_frags s) with
         | ScanGap => true
         | _ => false
         end
  end.
(** src/dtls13/engine.rs:1501-1528 [maybe_schedule_handshake_ack] *)
Definition maybe_schedule_ack (now : N) (s : Eng13) : Eng13 :=
  if negb (handshake_in_progress s) then set_g_ackdl None s
  else if is_some (g_ackdl s) then s
  else if negb (ack_help_needed s) then s
  else set_g_ackdl (Some (now + (if has_gap s then 0 else backoff_rto (g_bo s) / 4))) s.
(** src/dtls13/engine.rs:1531-1580 [maybe_flush_handshake_ack],
    [send_handshake_ack_epoch2] *)
Definition epoch2_records (q : list (list Rec12)) : list (N * N) :=
  firstn 32 (map (fun r => (r_epoch r, r_seq r))
    (filter (fun r => (r_epoch r =? 2) && (r_ctype r =? CT_HS)) (concat q))).
Definition maybe_flush_ack (now : N) : GM unit :=
  let! s := get in
  match g_ackdl s with
  | None => ret tt
  | Some d =>
    if now <? d then ret tt
    else
      modify (set_g_ackdl None) ;;;
      match epoch2_records (g_rx s) with
      | [] => ret tt
      | es => if negb (handshake_in_progress s) then ret tt
              else create_cipher13 CT_ACK 2 false (s_ack es)
      end
  end.

(** src/dtls13/engine.rs:487-533 [handle_timeout] *)
Definition eng13_handle_timeout (now : N) : GM unit :=
  let! s := get in
  when (timeout_is_unarmed (g_connect s))
    (modify (set_g_connect (Armed (now + c_hs_timeout (g_cfg s))))) ;;;
  when (timeout_is_unarmed (g_flight s))
    (modify (set_g_flight (Armed (now + backoff_rto (g_bo s))))) ;;;
  let! s := get in
  if match g_connect s with Armed c => c <=? now | _ => false end
  then fail (ETimeout TO_Connect)
  else
    match g_flight s with
    | Armed f =>
      (if f <=? now then
         if backoff_can_retry (g_bo s) then
           let! t := draw13 in
           modify (fun s => set_g_bo (backoff_attempt (g_bo s) (e_jitter E t)) s) ;;;
           modify (fun s => set_g_flight (Armed (now + backoff_rto (g_bo s))) s) ;;;
           flight_resend13
         else fail (ETimeout TO_Handshake)
       else ret tt) ;;;
      modify (maybe_schedule_ack now) ;;;
      maybe_flush_ack now
    | _ => ret tt
    end.

(** ** Output *)

(** src/dtls13/engine.rs:636-668 [poll_timeout] *)
Definition poll_timeout13 (s : Eng13) (now : N) : N :=
  if timeout_is_disabled (g_connect s) && timeout_is_disabled (g_flight s) &&
     negb (is_some (g_ackdl s))
  then now + distant_future
  else
    let t := match g_connect s, g_flight s with
             | Armed c, Armed f => if c <? f then c else f
             | Armed c, _ => c
             | _, Armed f => f
             | _, _ => now + distant_future
             end in
    match g_ackdl s with
    | Some d => if d <? t then d else t
    | None => t
    end.

(** src/dtls13/engine.rs:565-597 [poll_app_data]; among the application data records
    the first unhandled one *)
Definition poll_app_data13 (cap : N) : GM (option Output) :=
  let! s := get in
  if negb (g_release s) then ret None
  else match find unhandled_app (concat (g_rx s)) with
       | None => ret None
       | Some r =>
         let n := len (r_frag r) in
         if cap <? n then ret (Some (OTooSmall n))
         else match r_hs r with
              | _ :: _ => panic 340
              | [] => modify (fun s => set_g_rx (mark_first unhandled_app (g_rx s)) s) ;;;
                      ret (Some (OAppData (r_frag r)))
              end
       end.

(** src/dtls13/engine.rs:613-630 [poll_packet_tx] *)
Definition poll_packet_tx13 (cap : N) : GM (option Output) :=
  let! s := get in
  match g_tx s with
  | [] => ret None
  | p :: r => if cap <? len p then ret (Some (OTooSmall (len p)))
              else modify (set_g_tx r) ;;; ret (Some (OPacket p))
  end.

(** src/dtls13/engine.rs:535-563 [poll_output] *)
Definition eng13_poll_output (cap now : N) : GM Output :=
  modify (fun s => set_g_rx (purge_handled (g_rx s)) s) ;;;
  let! a := poll_app_data13 cap in
  match a with
  | Some o => ret o
  | None =>
    modify (maybe_schedule_ack now) ;;;
    let! p := poll_packet_tx13 cap in
    match p with
    | Some o => ret o
    | None =>
      let! s := get in
      if is_some (g_cn s) && negb (g_cn_rep s)
      then modify (set_g_cn_rep true) ;;; ret OCloseNotify
      else ret (OTimeout (poll_timeout13 s now))
    end
  end.

(** ** Remaining engine operations *)

(** src/dtls13/engine.rs:1255-1258, 1260-1262 *)
Definition release13 : GM unit :=
  modify (fun s => set_g_hs_recv None (set_g_release true s)).
Definition release13_retaining : GM unit := modify (set_g_release true).
(** src/dtls13/engine.rs:1272-1277 [cancel_flights], 1281-1287 [abort] *)
Definition cancel_flights : GM unit :=
  modify (fun s => set_g_ackdl None (set_g_connect Disabled (set_g_flight Disabled
                     (set_g_saved [] s)))).
Definition eng13_abort : GM unit :=
  modify (fun s => set_g_ackdl None (set_g_connect Disabled (set_g_flight Disabled
                     (set_g_saved [] (set_g_tx [] s))))).

End Engine13.
