(** C29: DTLS 1.3 key updates. *)
From Verif Require Import Prelude PreludeFacts Types Codec Codec12 Codec13 Record12 Record13 Monad MonadFacts Env Config Window Prf
  Engine12 Client12 Engine13 Client13 Server13 Toy History12 Conn12 History13 Lift12 Lift13 Out13 Conn13 PropUsage13 PropForge13
  Open13 Fin13 KeyUpd13 Recv13.

(** ** New keys for sending *)

(** Whatever a connected endpoint is called with, its sending keys and epoch stay, or
    - the call is [handle_packet],
    - there are records it keeps for retransmission, all of them KeyUpdate messages sent
      in the current epoch ([ku_entry]),
    - each of them was acknowledged by an ACK record that a datagram of the history held
      and that opened under one of the endpoint's receive keys ([acked_before]),
    and then the keys are those of the next application traffic secret ([next_keys]) and
    the epoch is the next one.  (When the derivation fails the keys are lost.) *)
Theorem C29_switch13 : forall E cfg cert key s0 h s k r s',
  start13 E cfg cert key s0 -> history13 E s0 h s -> fin13 s = true -> end13_call E k s = (r, s') ->
  (g_app_send (end13_eng s') = g_app_send (end13_eng s) /\ g_epoch (end13_eng s') = g_epoch (end13_eng s)) \/
  (exists p, k = Packet p) /\ g_saved (end13_eng s) <> [] /\
  Forall (fun x => ku_entry (g_epoch (end13_eng s)) x /\
                   acked_before E s0 (h ++ [(k, r)]) (en13_epoch x) (en13_seq x)) (g_saved (end13_eng s)) /\
  ((exists cur ks, g_app_send (end13_eng s) = Some cur /\ g_app_send (end13_eng s') = Some ks /\
      g_epoch (end13_eng s') = u16 (g_epoch (end13_eng s) + 1) /\ next_keys E cur ks) \/
   (g_app_send (end13_eng s') = None /\ g_epoch (end13_eng s') = g_epoch (end13_eng s))).
Proof. exact switch13. Qed.
Print Assumptions C29_switch13.

(** ** One key update at a time *)

(** While an own key update is in flight, and no answer to a key update of the peer is
    owed ([pend13]), no call starts another one before the records of the first have been
    acknowledged: the number of the next own handshake message stays.  Missing: the case
    of an owed answer, where it is false (below). *)
Theorem C29_one_in_flight13_partial : forall E cfg cert key s0 h s k r s',
  start13 E cfg cert key s0 -> history13 E s0 h s -> fin13 s = true ->
  g_inflight (end13_eng s) = true -> pend13 s = false -> end13_call E k s = (r, s') ->
  g_next_hs (end13_eng s') = g_next_hs (end13_eng s) \/
  (g_saved (end13_eng s) <> [] /\
   Forall (fun x => acked_before E s0 (h ++ [(k, r)]) (en13_epoch x) (en13_seq x)) (g_saved (end13_eng s))).
Proof.
  intros E cfg cert key s0 h s k r s' H0 H Hf Hi Hp Hc.
  destruct (in_flight13 E k s r s' Hf Hp Hi Hc) as [K|K]; [left; exact K|right].
  destruct (switch13 E cfg cert key s0 h s k r s' H0 H Hf Hc) as [(_ & X)|(_ & X1 & X2 & _)].
  - exfalso. rewrite X in K. exact (u16_next _ (eq_sym K)).
  - split; [exact X1|]. eapply Forall_impl; [|exact X2]. intros x [_ Y]. exact Y.
Qed.
Print Assumptions C29_one_in_flight13_partial.

(** ** The receive keys *)

(** A call on a connected endpoint leaves the receive keys and their epochs as they are,
    or applies exactly one key update of the peer: the keys of the secret after the
    newest one are added under the next epoch number, the others stay readable (of four
    the oldest goes), and the handshake message is counted as consumed.  A call that fails
    may add the keys and not count the message; what follows from that is below. *)
Theorem C29_receive13_partial : forall E cfg cert key h s k r s',
  reach13 E cfg cert key h s -> fin13 s = true -> end13_call E k s = (r, s') ->
  let keys s := map (fun x => (re_epoch x, re_keys x)) (g_recv (end13_eng s)) in
  (keys s' = keys s /\ g_peer_hs (end13_eng s') = g_peer_hs (end13_eng s)) \/
  match r with
  | Panic _ => True
  | Ok _ | Err _ =>
    (exists l ep cur ks, keys s = l ++ [(ep, cur)] /\ next_keys E cur ks /\
       keys s' = (if Nat.leb 4 (length (keys s)) then tl (keys s) else keys s) ++ [(u16 (ep + 1), ks)]) /\
    match r with
    | Ok _ => g_peer_hs (end13_eng s') = u16 (g_peer_hs (end13_eng s) + 1)
    | _ => g_peer_hs (end13_eng s') = g_peer_hs (end13_eng s)
    end
  end.
Proof.
  intros E cfg cert key h s k r s' _ Hf Hc. cbv zeta.
  destruct (receive13 E k s r s' Hf Hc) as [K|K]; [left; exact K|right]. destruct r; exact K || exact I.
Qed.
Print Assumptions C29_receive13_partial.

(** ** Runs *)

(** The connection of [Conn13] with a server whose AEAD limit is 1. *)
Definition ylim0 : End13 := new_server13 toy2 cfg_limit [48; 9] (toy_key 9) 0.
Definition ku_first := pump_log13 toy toy2 8 (call_log13 toy (Tick 5) ([], xc0)) (call_log13 toy2 (Tick 5) ([], ylim0)).
Definition ku_conn := pump_log13 toy toy2 3 (calls_log13 toy [Tick 6] (fst ku_first)) (snd ku_first).
Definition kc_calls : list Call := Eval vm_compute in calls_of (fst (fst ku_conn)).
Definition ks_calls : list Call := Eval vm_compute in calls_of (fst (snd ku_conn)).
Definition kc_run (cs : list Call) : Log * End13 := replay13 toy (kc_calls ++ cs) xc0.
Definition ks_run (cs : list Call) : Log * End13 := replay13 toy2 (ks_calls ++ cs) ylim0.
Lemma kc_reach cs : quiet (removelast (fst (kc_run cs))) = true ->
  reach13 toy config_default [48; 7] (toy_key 7) (fst (kc_run cs)) (snd (kc_run cs)).
Proof. unfold kc_run. intro Q. apply run13_reach; [apply new_client13_start|exact Q]. Qed.
Lemma ks_reach cs : quiet (removelast (fst (ks_run cs))) = true ->
  reach13 toy2 cfg_limit [48; 9] (toy_key 9) (fst (ks_run cs)) (snd (ks_run cs)).
Proof. unfold ks_run. intro Q. apply run13_reach; [apply new_server13_start|exact Q]. Qed.

(** The server's key update: the record, and the client's acknowledgement of it. *)
Definition ku_packet : bytes := Eval vm_compute in last (datagrams (outputs (fst (ks_run [Tick 7; Poll 3000])))) [].
Definition ack_packet : bytes := Eval vm_compute in last (datagrams (outputs (fst (kc_run [Packet ku_packet; Poll 3000])))) [].

(** The hypotheses of the theorems: an endpoint that sends under epoch 4, with its
    KeyUpdate of that epoch in flight; the acknowledgement makes it switch to epoch 5, a
    repetition of it changes nothing. *)
Example C29_switch_case :
  reach13 toy2 cfg_limit [48; 9] (toy_key 9) (fst (ks_run [Tick 7; Poll 3000])) (snd (ks_run [Tick 7; Poll 3000])) /\
  fin13 (snd (ks_run [Tick 7; Poll 3000])) = true /\ pend13 (snd (ks_run [Tick 7; Poll 3000])) = false /\
  g_inflight (end13_eng (snd (ks_run [Tick 7; Poll 3000]))) = true /\
  map (fun s => g_epoch (end13_eng (snd (ks_run s))))
    [[Tick 7; Poll 3000]; [Tick 7; Poll 3000; Packet ack_packet]; [Tick 7; Poll 3000; Packet ack_packet; Packet ack_packet]] = [4; 5; 5].
Proof.
  split; [apply ks_reach; vm_compute; reflexivity|]. split; [vm_compute; reflexivity|]. split; [vm_compute; reflexivity|].
  split; [vm_compute; reflexivity|]. vm_compute. reflexivity.
Qed.
(** On the other side: the receive epochs before and after the record. *)
Example C29_receive_case :
  reach13 toy config_default [48; 7] (toy_key 7) (fst (kc_run [])) (snd (kc_run [])) /\ fin13 (snd (kc_run [])) = true /\
  recv_epochs (snd (kc_run [])) = [3; 4] /\
  fst (end13_call toy (Packet ku_packet) (snd (kc_run []))) = Ok None /\
  recv_epochs (snd (end13_call toy (Packet ku_packet) (snd (kc_run [])))) = [3; 4; 5].
Proof.
  split; [apply kc_reach; vm_compute; reflexivity|]. split; [vm_compute; reflexivity|]. split; [vm_compute; reflexivity|].
  split; vm_compute; reflexivity.
Qed.

(** ** What is false *)

(** Two key updates at once.  A connected client owes the server an answer and its own
    limit is reached; one [handle_timeout] starts both updates.  Two message numbers are
    used, both unacknowledged; only the second record is kept for retransmission. *)
Definition two_conn := pump_log13 toy toy2 8 (call_log13 toy (Tick 5) ([], xl0)) (call_log13 toy2 (Tick 5) ([], ylim0)).
Definition two_calls : list Call := Eval vm_compute in calls_of (fst (fst two_conn)).
Definition two_run : Log * End13 := replay13 toy two_calls xl0.
Theorem C29_two_in_flight13_refuted : exists h s now s',
  reach13 toy cfg_limit [48; 7] (toy_key 7) h s /\ Forall (fun x => ~ panicked (snd x)) h /\ In OConnected (outputs h) /\
  g_inflight (end13_eng s) = false /\
  end13_call toy (Tick now) s = (Ok None, s') /\ g_inflight (end13_eng s') = true /\
  g_next_hs (end13_eng s') = g_next_hs (end13_eng s) + 2 /\
  length (g_saved (end13_eng s')) = 1%nat.
Proof.
  exists (fst two_run), (snd two_run), 6, (snd (end13_call toy (Tick 6) (snd two_run))).
  split; [apply run13_reach; [unfold xl0; apply new_client13_start|vm_compute; reflexivity]|].
  split; [apply quiet_forall; vm_compute; reflexivity|]. split; [apply saw_connected; vm_compute; reflexivity|].
  split; [vm_compute; reflexivity|]. split; [apply pair_fst; vm_compute; reflexivity|].
  split; [vm_compute; reflexivity|]. split; vm_compute; reflexivity.
Qed.
Print Assumptions C29_two_in_flight13_refuted.

(** One key update applied twice.  The client's send queue is full when the server's
    KeyUpdate arrives: the keys of the next epoch are installed, the acknowledgement
    cannot be sent, the call fails and the message is not counted.  The retransmission of
    the same message installs the keys of yet another epoch. *)
Definition full_queue : list Call := repeat (Send big) 10.
Definition ku_again : bytes := Eval vm_compute in
  last (datagrams (outputs (fst (ks_run [Tick 7; Poll 3000; Tick 3000000000; Tick 6000000000; Poll 3000])))) [].
Theorem C29_update_applied_twice13_refuted : exists hc c hs s p1 p2 c1 c2,
  reach13 toy config_default [48; 7] (toy_key 7) hc c /\ Forall (fun x => ~ panicked (snd x)) hc /\
  reach13 toy2 cfg_limit [48; 9] (toy_key 9) hs s /\ Forall (fun x => ~ panicked (snd x)) hs /\
  (forall p, In p (received hc ++ [p1; p2]) -> In p (datagrams (outputs hs))) /\
  end13_call toy (Packet p1) c = (Err ETxFull, c1) /\ end13_call toy (Packet p2) c1 = (Err ETxFull, c2) /\
  g_next_hs (end13_eng s) = g_peer_hs (end13_eng c) + 1 /\
  recv_epochs c = [3; 4] /\ recv_epochs c2 = [3; 4; 5; 6].
Proof.
  exists (fst (kc_run full_queue)), (snd (kc_run full_queue)),
    (fst (ks_run [Tick 7; Poll 3000; Tick 3000000000; Tick 6000000000; Poll 3000])),
    (snd (ks_run [Tick 7; Poll 3000; Tick 3000000000; Tick 6000000000; Poll 3000])), ku_packet, ku_again,
    (snd (end13_call toy (Packet ku_packet) (snd (kc_run full_queue)))),
    (snd (end13_call toy (Packet ku_again) (snd (end13_call toy (Packet ku_packet) (snd (kc_run full_queue)))))).
  split; [apply kc_reach; vm_compute; reflexivity|]. split; [apply quiet_forall; vm_compute; reflexivity|].
  split; [apply ks_reach; vm_compute; reflexivity|]. split; [apply quiet_forall; vm_compute; reflexivity|].
  split; [apply all_in; vm_compute; reflexivity|].
  split; [apply pair_fst; vm_compute; reflexivity|]. split; [apply pair_fst; vm_compute; reflexivity|].
  split; [vm_compute; reflexivity|]. split; vm_compute; reflexivity.
Qed.
Print Assumptions C29_update_applied_twice13_refuted.

(** A key update that is never acknowledged although nothing is lost.  The server writes
    and then starts its key update, and both records leave in one datagram.  The client
    applies the update but does not note the record for acknowledgement, as the first
    record of the datagram is no handshake record; the retransmissions are ignored as
    old.  Every datagram of each side is delivered to the other, and the server's
    connection ends with a timeout. *)
Definition tick_pump (now : N) (b : (Log * End13) * (Log * End13)) : (Log * End13) * (Log * End13) :=
  pump_log13 toy toy2 3 (fst b) (calls_log13 toy2 [Tick now] (snd b)).
Definition silent_conn : (Log * End13) * (Log * End13) :=
  fold_left (fun b now => tick_pump now b) [8; 2000000000; 5000000000; 10000000000; 20000000000]
    (pump_log13 toy toy2 3 (fst ku_conn) (calls_log13 toy2 [Send [1; 2; 3]; Tick 7] (snd ku_conn))).
Definition silent_c_calls : list Call := Eval vm_compute in calls_of (fst (fst silent_conn)).
Definition silent_s_calls : list Call := Eval vm_compute in calls_of (fst (snd silent_conn)).
Definition silent_c : Log * End13 := replay13 toy silent_c_calls xc0.
Definition silent_s : Log * End13 := replay13 toy2 silent_s_calls ylim0.
Theorem C29_never_acknowledged13_refuted : exists hc c hs s s' now,
  reach13 toy config_default [48; 7] (toy_key 7) hc c /\ Forall (fun x => ~ panicked (snd x)) hc /\
  reach13 toy2 cfg_limit [48; 9] (toy_key 9) hs s /\ Forall (fun x => ~ panicked (snd x)) hs /\
  In OConnected (outputs hc) /\ In OConnected (outputs hs) /\
  received hc = datagrams (outputs hs) /\ received hs = datagrams (outputs hc) /\
  g_inflight (end13_eng s) = true /\ now < c_hs_timeout config_default /\
  end13_call toy2 (Tick now) s = (Err (ETimeout TO_Handshake), s').
Proof.
  exists (fst silent_c), (snd silent_c), (fst silent_s), (snd silent_s), (snd (end13_call toy2 (Tick 39000000000) (snd silent_s))), 39000000000.
  split; [apply run13_reach; [apply new_client13_start|vm_compute; reflexivity]|]. split; [apply quiet_forall; vm_compute; reflexivity|].
  split; [apply run13_reach; [apply new_server13_start|vm_compute; reflexivity]|]. split; [apply quiet_forall; vm_compute; reflexivity|].
  split; [apply saw_connected; vm_compute; reflexivity|]. split; [apply saw_connected; vm_compute; reflexivity|].
  split; [vm_compute; reflexivity|]. split; [vm_compute; reflexivity|]. split; [vm_compute; reflexivity|].
  split; [vm_compute; reflexivity|]. apply pair_fst. vm_compute. reflexivity.
Qed.
Print Assumptions C29_never_acknowledged13_refuted.
