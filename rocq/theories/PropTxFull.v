(** C56: an accepted configuration with which the handshake cannot be run. *)
From Verif Require Import Prelude Types Codec Codec12 Record12 Monad MonadFacts Env Config Aead AuxProofs Toy Context12 Engine12 Client12 Engine13 Client13 Server13
  History12 History13 Conn12 Conn13 PropPanic13.

(** C56 is false: a flight has to fit into the send queue (10 datagrams by default)
    before the application gets to see any of it.  A DTLS 1.3 server with the smallest
    MTU that is accepted, a certificate of 301 bytes and otherwise the default
    configuration answers the ClientHello, with its cookie, of an ordinary client with
    the error [TransmitQueueFull], although its queue is empty when the call is made. *)
Definition cfg_64 : Config := mkConfig 64 30 10 true true 1000000000 4 40000000000 (2 ^ 23) None None None None.
Definition cert_64 : bytes := 48 :: repeat 9 300.
Definition tiny0 : End13 := new_server13 toy2 cfg_64 cert_64 (toy_key 9) 0.
Definition tiny_calls : list Call := firstn 4 xs_calls ++ [Poll 2000; Poll 2000; Poll 2000].
Definition is_full (r : Reply) : bool := match r with Err ETxFull => true | _ => false end.
Lemma full_case E cfg cert key cs s0 p : start13 E cfg cert key s0 -> quiet (fst (replay13 E cs s0)) = true ->
  quiet (removelast (fst (replay13 E cs s0))) = true -> is_nil (g_tx (end13_eng (snd (replay13 E cs s0)))) = true ->
  is_full (fst (end13_call E (Packet p) (snd (replay13 E cs s0)))) = true ->
  exists h s, reach13 E cfg cert key h s /\ g_tx (end13_eng s) = [] /\ fst (end13_call E (Packet p) s) = Err ETxFull.
Proof.
  intros St Q Q' T P. exists (fst (replay13 E cs s0)), (snd (replay13 E cs s0)). split; [apply run13_reach; assumption|]. split.
  - destruct (g_tx _); [reflexivity|discriminate].
  - revert P. destruct (fst (end13_call E (Packet p) _)) as [|[]|]; try discriminate. reflexivity.
Qed.
Lemma tiny_1 : quiet (fst (replay13 toy2 tiny_calls tiny0)) = true.
Proof. vm_compute. reflexivity. Qed.
Lemma tiny_2 : quiet (removelast (fst (replay13 toy2 tiny_calls tiny0))) = true.
Proof. vm_compute. reflexivity. Qed.
Lemma tiny_3 : is_nil (g_tx (end13_eng (snd (replay13 toy2 tiny_calls tiny0)))) = true.
Proof. vm_compute. reflexivity. Qed.
Lemma tiny_4 : is_full (fst (end13_call toy2 (Packet hello2) (snd (replay13 toy2 tiny_calls tiny0)))) = true.
Proof. vm_compute. reflexivity. Qed.
Lemma tiny_start : start13 toy2 cfg_64 cert_64 (toy_key 9) tiny0.
Proof. apply new_server13_start. Qed.
Theorem C56_flight_exceeds_queue13_refuted : exists E cfg cert key h s p,
  config_build E true cfg = Ok cfg /\ c_mtu cfg = 64 /\ c_max_tx cfg = 10 /\ len cert = 301 /\
  reach13 E cfg cert key h s /\ g_tx (end13_eng s) = [] /\ fst (end13_call E (Packet p) s) = Err ETxFull.
Proof.
  destruct (full_case toy2 cfg_64 cert_64 (toy_key 9) tiny_calls tiny0 hello2 tiny_start tiny_1 tiny_2 tiny_3 tiny_4) as (h & s & K).
  exists toy2, cfg_64, cert_64, (toy_key 9), h, s, hello2.
  split; [vm_compute; reflexivity|]. split; [reflexivity|]. split; [reflexivity|]. split; [vm_compute; reflexivity|exact K].
Qed.
Print Assumptions C56_flight_exceeds_queue13_refuted.

(** The same in DTLS 1.2, with a certificate of 401 bytes. *)
Definition auth_64 : AuthMode := AuthCert (48 :: repeat 9 400) (toy_key 9).
Definition tiny12 : End12 := new_server toy2 cfg_64 auth_64 0.
Definition hello12 : bytes := match nth_error sv_calls 4 with Some (Packet p) => p | _ => [] end.
Lemma full_case12 E cfg auth cs s0 p : start12 E cfg auth s0 -> quiet (removelast (fst (replay E cs s0))) = true ->
  is_nil (en_tx (end_eng (snd (replay E cs s0)))) = true -> is_full (fst (end12_call E (Packet p) (snd (replay E cs s0)))) = true ->
  exists h s, reach12 E cfg auth h s /\ en_tx (end_eng s) = [] /\ fst (end12_call E (Packet p) s) = Err ETxFull.
Proof.
  intros St Q T P. exists (fst (replay E cs s0)), (snd (replay E cs s0)). split; [exists s0; split; [exact St|apply replay_history, Q]|]. split.
  - destruct (en_tx _); [reflexivity|discriminate].
  - revert P. destruct (fst (end12_call E (Packet p) _)) as [|[]|]; try discriminate. reflexivity.
Qed.
Lemma tiny12_1 : quiet (removelast (fst (replay toy2 (firstn 4 sv_calls) tiny12))) = true.
Proof. vm_compute. reflexivity. Qed.
Lemma tiny12_2 : is_nil (en_tx (end_eng (snd (replay toy2 (firstn 4 sv_calls) tiny12)))) = true.
Proof. vm_compute. reflexivity. Qed.
Lemma tiny12_3 : is_full (fst (end12_call toy2 (Packet hello12) (snd (replay toy2 (firstn 4 sv_calls) tiny12)))) = true.
Proof. vm_compute. reflexivity. Qed.
Lemma tiny12_start : start12 toy2 cfg_64 auth_64 tiny12.
Proof. apply new_server_start. Qed.
Theorem C56_flight_exceeds_queue12_refuted : exists E cfg cert key h s p,
  config_build E true cfg = Ok cfg /\ c_mtu cfg = 64 /\ c_max_tx cfg = 10 /\ len cert = 401 /\
  reach12 E cfg (AuthCert cert key) h s /\ en_tx (end_eng s) = [] /\ fst (end12_call E (Packet p) s) = Err ETxFull.
Proof.
  destruct (full_case12 toy2 cfg_64 auth_64 (firstn 4 sv_calls) tiny12 hello12 tiny12_start tiny12_1 tiny12_2 tiny12_3) as (h & s & K).
  exists toy2, cfg_64, (48 :: repeat 9 400), (toy_key 9), h, s, hello12.
  split; [vm_compute; reflexivity|]. split; [reflexivity|]. split; [reflexivity|]. split; [vm_compute; reflexivity|exact K].
Qed.
Print Assumptions C56_flight_exceeds_queue12_refuted.
