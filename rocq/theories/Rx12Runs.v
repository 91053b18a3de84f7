(** Recorded runs of the DTLS 1.2 model with the toy provider: received data, a
    received close_notify, an injected record. *)
From Verif Require Import Prelude PreludeFacts Types Codec Codec12 Env Config Context12 Monad MonadFacts
  Record12 Timer Engine12 Client12 Server12 Toy History12 Conn12 Rx12Ledger.

Definition fresh_pair : (Log * End12) * (Log * End12) :=
  (call_log toy (Tick 5) ([], new_client toy config_default (toy_auth 7) 0),
   call_log toy2 (Tick 5) ([], new_server toy2 config_default (toy_auth 9) 0)).

Definition pair2 : (Log * End12) * (Log * End12) := pump_log toy toy2 2 (fst fresh_pair) (snd fresh_pair).
Definition pair4 : (Log * End12) * (Log * End12) := pump_log toy toy2 4 (fst fresh_pair) (snd fresh_pair).

(** A client whose server writes [5;6] and [7] and then closes. *)
Definition data_conn :=
  pump_log toy toy2 2 (fst pair4) (calls_log toy2 [Send [5; 6]; Send [7]] (snd pair4)).
Definition data_calls : list Call := Eval vm_compute in calls_of (fst (fst data_conn)).
Definition data_run : Log * End12 := replay toy data_calls (new_client toy config_default (toy_auth 7) 0).
Lemma data_run_reach : reach12 toy config_default (toy_auth 7) (fst data_run) (snd data_run).
Proof. eexists. split; [apply new_client_start|]. apply replay_history. vm_compute. reflexivity. Qed.

(** The server's next datagrams: more data and its close_notify. *)
Definition more_datagrams : list bytes :=
  Eval vm_compute in fst (drain_log toy2 200 (calls_log toy2 [Send [8]; Close] (snd data_conn))).
Definition tx_after (E : Env) (ct : N) (d : bytes) (s : End12) : list bytes :=
  en_tx (snd (create_record E ct 1 false d (end_eng s))).
(** The handshake record with which it asks for renegotiation, were it to send one. *)
Definition reneg_datagrams : list bytes :=
  Eval vm_compute in tx_after toy2 CT_HS [0; 0;0;0; 0;9; 0;0;0; 0;0;0] (snd (snd data_conn)).
Definition alert_datagrams : list bytes :=
  Eval vm_compute in tx_after toy2 CT_ALERT [2; 40] (snd (snd data_conn)).
Definition close_datagrams : list bytes :=
  Eval vm_compute in tx_after toy2 CT_ALERT [1; 0] (snd (snd data_conn)).

(** A client that got the data and then the close_notify, and then polls. *)
Definition bye_calls : list Call := Eval vm_compute in data_calls ++ map Packet more_datagrams ++ repeat (Poll 2000) 4.
Definition bye_run : Log * End12 := replay toy bye_calls (new_client toy config_default (toy_auth 7) 0).
Lemma bye_run_reach : reach12 toy config_default (toy_auth 7) (fst bye_run) (snd bye_run).
Proof. eexists. split; [apply new_client_start|]. apply replay_history. vm_compute. reflexivity. Qed.

(** An attacker without keys splits the server's last flight, adds an
    application-data record of epoch 2 to the datagram with the ChangeCipherSpec,
    and delivers the Finished after it. *)
Definition evil : bytes := [23; 254;253; 0;2; 0;0;0;0;0;0; 0;4; 101; 118; 105; 108].
Definition evil_conn_of (x : (Log * End12) * (Log * End12)) :=
  let '(c, s) := x in
  let '(ps, c) := drain_log toy 200 c in
  let s := calls_log toy2 (map Packet ps) s in
  let '(ps, s) := drain_log toy2 200 s in
  let c := calls_log toy (flat_map (fun p => [Packet (firstn 14 p ++ evil); Packet (skipn 14 p)]) ps) c in
  pump_log toy toy2 2 c s.
Definition evil_conn := evil_conn_of pair2.
Definition evil_calls : list Call := Eval vm_compute in calls_of (fst (fst evil_conn)).
Definition evil_run : Log * End12 := replay toy evil_calls (new_client toy config_default (toy_auth 7) 0).
Lemma evil_run_reach : reach12 toy config_default (toy_auth 7) (fst evil_run) (snd evil_run).
Proof. eexists. split; [apply new_client_start|]. apply replay_history. vm_compute. reflexivity. Qed.

(** The server's data and close_notify overtake its Finished. *)
Definition over_conn_of (x : (Log * End12) * (Log * End12)) :=
  let '(c, s) := x in
  let '(ps, c) := drain_log toy 200 c in
  let s := calls_log toy2 (map Packet ps) s in
  let '(ps, s) := drain_log toy2 200 s in
  let '(qs, s) := drain_log toy2 200 (calls_log toy2 [Send [5; 6]; Close] s) in
  let c := calls_log toy (map (fun p => Packet (firstn 14 p)) ps) c in
  let c := calls_log toy (map Packet qs) c in
  let c := snd (drain_log toy 200 c) in
  let c := calls_log toy (map (fun p => Packet (skipn 14 p)) ps) c in
  snd (drain_log toy 200 c).
Definition over_conn := over_conn_of pair2.
Definition over_calls : list Call := Eval vm_compute in calls_of (fst over_conn).
Definition over_run : Log * End12 := replay toy over_calls (new_client toy config_default (toy_auth 7) 0).
Lemma over_run_reach : reach12 toy config_default (toy_auth 7) (fst over_run) (snd over_run).
Proof. eexists. split; [apply new_client_start|]. apply replay_history. vm_compute. reflexivity. Qed.

Lemma toy_open_shrinks : open_shrinks toy.
Proof.
  unfold open_shrinks. intros. cbn in *. unfold toy_open in *. destruct (Nat.ltb _ _); [discriminate|]. destruct (beqb _ _); [|discriminate].
  match goal with H : Some _ = Some _ |- _ => injection H as <- end. rewrite firstn_length. lia.
Qed.
