(** More concrete DTLS 1.2 histories, for the examples and the refuted claims: a
    PSK connection, and a client that leaves out its certificate. *)
From Verif Require Import Prelude Types Codec Codec12 Env Config Context12 Monad Timer Engine12 Client12 Server12
  Toy History12 Conn12.

(** A configuration with a pre-shared key known to both sides under the identity
    [1; 2; 3]. *)
Definition psk_resolve (i : bytes) : option bytes := if beqb i [1; 2; 3] then Some [7; 7; 7; 7] else None.
Definition cfg_psk (p : Psk) : Config :=
  mkConfig 1150 30 10 true true 1000000000 4 40000000000 (2 ^ 23) (Some [CS_PSK]) (Some []) None (Some p).
Definition cfg_psk_client (i : bytes) : Config :=
  cfg_psk (PskClient i (fun _ => Some [7; 7; 7; 7])).
Definition cfg_psk_server : Config := cfg_psk (PskServer (Some [9]) psk_resolve).

Definition conn_psk (i : bytes) : (Log * End12) * (Log * End12) :=
  pump_log toy toy2 8
    (call_log toy (Tick 5) ([], new_client toy (cfg_psk_client i) AuthPsk 0))
    (call_log toy2 (Tick 5) ([], new_server toy2 cfg_psk_server AuthPsk 0)).
Definition psk_cl_calls : list Call := Eval vm_compute in calls_of (fst (fst (conn_psk [1; 2; 3]))).
Definition psk_sv_calls : list Call := Eval vm_compute in calls_of (fst (snd (conn_psk [1; 2; 3]))).
Definition psk_cl_run : Log * End12 := replay toy psk_cl_calls (new_client toy (cfg_psk_client [1; 2; 3]) AuthPsk 0).
Definition psk_sv_run : Log * End12 := replay toy2 psk_sv_calls (new_server toy2 cfg_psk_server AuthPsk 0).

Lemma psk_cl_run_reach : reach12 toy (cfg_psk_client [1; 2; 3]) AuthPsk (fst psk_cl_run) (snd psk_cl_run).
Proof.
  eexists. split; [apply new_client_start|]. apply replay_history. vm_compute. reflexivity.
Qed.
Lemma psk_sv_run_reach : reach12 toy2 cfg_psk_server AuthPsk (fst psk_sv_run) (snd psk_sv_run).
Proof.
  eexists. split; [apply new_server_start|]. apply replay_history. vm_compute. reflexivity.
Qed.

(** A client that is asked for a certificate, sends an empty list and no
    CertificateVerify.  It is not part of the library: it stands for a peer. *)
Definition bare_step (E : Env) (st : CState12) : M Client12 CState12 :=
  match st with
  | CS_SendCertificate =>
    ceng (flight_begin E) ;;;
    ceng (create_handshake E MT_Certificate (ret (s_cert12 []))) ;;;
    ret CS_SendClientKeyExchange
  | CS_SendClientKeyExchange => c_step E st ;;; ret CS_SendChangeCipherSpec
  | _ => c_step E st
  end.
Fixpoint bare_progress (E : Env) (fuel : nat) : M Client12 unit :=
  match fuel with
  | O => ret tt
  | S fuel' =>
    let! c := get in
    let! st := bare_step E (cl_state c) in
    if cstate12_eqb (cl_state c) st then ret tt
    else modify (set_cl_state st) ;;; bare_progress E fuel'
  end.
Fixpoint bare_packets (E : Env) (ps : list bytes) (c : Client12) : Client12 :=
  match ps with
  | [] => c
  | p :: ps => bare_packets E ps (snd ((ceng (eng12_parse_packet E p) ;;; bare_progress E 40) c))
  end.
Fixpoint bare_pump (E E' : Env) (n : nat) (c : Client12) (s : Log * End12) : Client12 * (Log * End12) :=
  match n with
  | O => (c, s)
  | S k =>
    let '(ps, x) := drain_log E 200 ([], Cl c) in
    let c := match snd x with Cl c => c | Sv _ => c end in
    let s := calls_log E' (map Packet ps) s in
    let '(ps, s) := drain_log E' 200 s in
    bare_pump E E' k (bare_packets E ps c) s
  end.
Definition bare_conn : Client12 * (Log * End12) :=
  bare_pump toy toy2 8
    (match call_log toy (Tick 5) ([], new_client toy config_default (toy_auth 7) 0) with
     | (_, Cl c) => c | _ => client12_new (eng12_new toy config_default (toy_auth 7)) 0 end)
    (call_log toy2 (Tick 5) ([], new_server toy2 config_default (toy_auth 9) 0)).
Definition bare_calls : list Call := Eval vm_compute in calls_of (fst (snd bare_conn)).
Definition bare_run : Log * End12 := replay toy2 bare_calls (new_server toy2 config_default (toy_auth 9) 0).
Lemma bare_run_reach : reach12 toy2 config_default (toy_auth 9) (fst bare_run) (snd bare_run).
Proof.
  eexists. split; [apply new_server_start|]. apply replay_history. vm_compute. reflexivity.
Qed.

(** A client that writes 30 times before the handshake finishes, with a send queue
    of 10 datagrams: the writes do not fit when the handshake completes. *)
Definition early_conn : (Log * End12) * (Log * End12) :=
  pump_log toy toy2 8
    (calls_log toy (repeat (Send (repeat 65 1100)) 30)
      (call_log toy (Tick 5) ([], new_client toy config_default (toy_auth 7) 0)))
    (call_log toy2 (Tick 5) ([], new_server toy2 config_default (toy_auth 9) 0)).
Definition early_calls : list Call := Eval vm_compute in calls_of (fst (fst early_conn)).
Definition early_run : Log * End12 := replay toy early_calls (new_client toy config_default (toy_auth 7) 0).
Lemma early_run_reach : reach12 toy config_default (toy_auth 7) (fst early_run) (snd early_run).
Proof.
  eexists. split; [apply new_client_start|]. apply replay_history. vm_compute. reflexivity.
Qed.
(** The same with one write of two bytes and one of three, after which the client
    closes. *)
Definition short_conn : (Log * End12) * (Log * End12) :=
  pump_log toy toy2 8
    (calls_log toy [Send [1; 2]; Send [3; 4; 5]]
      (call_log toy (Tick 5) ([], new_client toy config_default (toy_auth 7) 0)))
    (call_log toy2 (Tick 5) ([], new_server toy2 config_default (toy_auth 9) 0)).
Definition short_calls : list Call := Eval vm_compute in calls_of (fst (fst short_conn)) ++ [Send [6]].
Definition short_run : Log * End12 := replay toy short_calls (new_client toy config_default (toy_auth 7) 0).
Lemma short_run_reach : reach12 toy config_default (toy_auth 7) (fst short_run) (snd short_run).
Proof.
  eexists. split; [apply new_client_start|]. apply replay_history. vm_compute. reflexivity.
Qed.
Definition closed_run : Log * End12 := replay toy (short_calls ++ [Close]) (new_client toy config_default (toy_auth 7) 0).
Lemma closed_run_reach : reach12 toy config_default (toy_auth 7) (fst closed_run) (snd closed_run).
Proof.
  eexists. split; [apply new_client_start|]. apply replay_history. vm_compute. reflexivity.
Qed.
