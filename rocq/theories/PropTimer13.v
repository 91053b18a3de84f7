(** C24, C25 and C26 for DTLS 1.3: the timers of the handshake.

    Vocabulary: [Tick now] is [handle_timeout(now)], [Poll cap] is [poll_output] with
    a buffer of [cap] bytes, [Packet p] is [handle_packet]; times are nanoseconds.
    [history13 E s0 h s]: the endpoint (client [XC] or server [XS]) goes from [s0] to
    [s] by the calls and replies [h].  [fresh13]: a new endpoint that no call but
    [set_active] was made on.  [first_tick h] is the time of the first
    [handle_timeout] of [h].  [was_connected13 h s]: Connected was reported in [h] or
    is waiting to be polled.  [waiting13 E s]: in the middle of the handshake, the
    peer's next message has not arrived.  [resent13 s]: how many times the current
    flight was retransmitted.  [about n d]: [d] is [n] plus a jitter of at most a
    quarter second either way, and at least 50 ms.  [g_flight], [g_connect],
    [g_ackdl]: the deadlines for the retransmission, for the whole handshake and for
    an acknowledgement; [g_saved]: the records of the flight; [g_tx]: the datagrams
    to be sent. *)
From Verif Require Import Prelude PreludeFacts Types Codec Record12 Record12 Window Env Config Monad MonadFacts
  Timer Engine12 Client12 Engine13 Client13 Server13 Toy History12 Conn12 History13 Conn13 Lift13
  Trace13 Trace13Proofs Timer12Proofs Wait12Proofs NoTime13 Timer13Proofs Poll13Proofs Out13 Wait13Proofs PropTimer12 AutoProofs.

Definition was_connected13 (h : list (Call * Reply)) (s : End13) : Prop :=
  In OConnected (outputs h) \/ In LE_Connected (end13_events s).

(** ** C24: back-off *)

(** One call of [handle_timeout] on a waiting endpoint before the overall deadline.
    Before the retransmission deadline it does not touch the flight; at or after it,
    it resends the flight and sets the next deadline, doubled, unless the flight was
    resent [flight_retries] times already: then it fails.  Missing from the full
    property: a server that has received a client certificate does not retransmit at
    all ([Disabled]), see [C25_server_stalled13_refuted]. *)
Theorem C24_timeout13_partial : forall E cfg cert key h s now r s',
  reach13 E cfg cert key h s -> waiting13 E s -> jitter_ok E -> 0 < c_hs_timeout cfg ->
  match g_connect (end13_eng s) with Armed c => now < c | _ => True end ->
  end13_call E (Tick now) s = (r, s') ->
  match g_flight (end13_eng s) with
  | Disabled =>
    r = Ok None /\ waiting13 E s' /\ g_flight (end13_eng s') = Disabled /\ g_tx (end13_eng s') = g_tx (end13_eng s)
  | Unarmed =>
    ~ timer_reply r /\ waiting13 E s' /\ resent13 s' = resent13 s /\ g_saved (end13_eng s') = g_saved (end13_eng s) /\
    exists d, about (c_rto cfg * 2 ^ resent13 s) d /\ g_flight (end13_eng s') = Armed (now + d)
  | Armed f =>
    if now <? f then
      ~ timer_reply r /\ waiting13 E s' /\ resent13 s' = resent13 s /\ g_saved (end13_eng s') = g_saved (end13_eng s) /\
      g_flight (end13_eng s') = Armed f
    else if resent13 s <? c_retries cfg then
      ~ timer_reply r /\ waiting13 E s' /\ resent13 s' = resent13 s + 1 /\
      (exists d, about (c_rto cfg * 2 ^ resent13 s') d /\ g_flight (end13_eng s') = Armed (now + d)) /\
      (exists x rx e1, g_saved x = g_saved (end13_eng s) /\ g_tx x = g_tx (end13_eng s) /\
         flight_resend13 E x = (rx, e1) /\
         match rx with
         | Ok _ => g_saved (end13_eng s') = g_saved e1
         | Err y => r = Err y /\ end13_eng s' = e1
         | Panic n => r = Panic n
         end)
    else r = Err (ETimeout TO_Handshake) /\ g_tx (end13_eng s') = g_tx (end13_eng s)
  end.
Proof. intros. eapply waiting_tick13; eassumption. Qed.
Print Assumptions C24_timeout13_partial.

(** A run of [handle_timeout] calls, each at or after the retransmission deadline
    and before the overall one, none of them panicking or timing out. *)
Inductive resends13 (E : Env) : End13 -> nat -> End13 -> Prop :=
| no_resend13 s : resends13 E s 0 s
| one_resend13 s now f r s1 n s2 :
    g_flight (end13_eng s) = Armed f -> f <= now ->
    match g_connect (end13_eng s) with Armed c => now < c | _ => True end ->
    end13_call E (Tick now) s = (r, s1) -> ~ panicked r -> ~ timer_reply r ->
    resends13 E s1 n s2 -> resends13 E s (S n) s2.

Lemma resends13_count E cfg cert key n s s' : jitter_ok E -> 0 < c_hs_timeout cfg -> resends13 E s n s' ->
  forall h, reach13 E cfg cert key h s -> Forall (fun x => ~ panicked (snd x)) h -> waiting13 E s ->
  exists h', reach13 E cfg cert key h' s' /\ waiting13 E s' /\
    resent13 s' = resent13 s + N.of_nat n /\ resent13 s' <= c_retries cfg.
Proof.
  intros J T R. induction R as [s|s now f r s1 n s2 F L C K NPr NTr R IH]; intros h HR NP W.
  - exists h. split; [exact HR|]. split; [exact W|]. split; [lia|]. unfold resent13.
    rewrite (proj1 (reach_bo13 _ _ _ _ _ _ HR)). lia.
  - pose proof (C24_timeout13_partial E cfg cert key h s now _ _ HR W J T C K) as Q. rewrite F in Q.
    replace (now <? f) with false in Q by lia.
    destruct (resent13 s <? c_retries cfg) eqn:Hk; [|destruct Q as [Q _]; destruct NTr; eexists; exact Q].
    destruct Q as (_ & Q2 & Q1 & _).
    destruct HR as (s0 & H0 & HH).
    destruct (IH (h ++ [(Tick now, r)])) as (h' & A & B & D & F').
    + exists s0. split; [exact H0|]. econstructor; [exact HH|exact NP|exact K].
    + apply Forall_app. split; [exact NP|]. constructor; [exact NPr|constructor].
    + exact Q2.
    + exists h'. split; [exact A|]. split; [exact B|]. split; [lia|exact F'].
Qed.

(** While the endpoint waits, the flight is resent at most [flight_retries] times;
    after that many the next due [handle_timeout] is the handshake timeout. *)
Theorem C24_bounded_retries13 : forall E cfg cert key h s n s',
  jitter_ok E -> 0 < c_hs_timeout cfg ->
  reach13 E cfg cert key h s -> Forall (fun x => ~ panicked (snd x)) h -> waiting13 E s ->
  resends13 E s n s' ->
  resent13 s + N.of_nat n <= c_retries cfg /\
  (resent13 s + N.of_nat n = c_retries cfg -> forall f now,
     g_flight (end13_eng s') = Armed f -> f <= now ->
     match g_connect (end13_eng s') with Armed c => now < c | _ => True end ->
     fst (end13_call E (Tick now) s') = Err (ETimeout TO_Handshake)).
Proof.
  intros E cfg cert key h s n s' J T HR NP W R.
  destruct (resends13_count E cfg cert key n s s' J T R h HR NP W) as (h' & HR' & W' & K1 & K2).
  split; [lia|]. intros Hn f now F L C. destruct (end13_call E (Tick now) s') as [r s2] eqn:Hc.
  pose proof (C24_timeout13_partial E cfg cert key h' s' now _ _ HR' W' J T C Hc) as Q. rewrite F in Q.
  replace (now <? f) with false in Q by lia. replace (resent13 s' <? c_retries cfg) with false in Q by lia.
  cbn [fst]. exact (proj1 Q).
Qed.
Print Assumptions C24_bounded_retries13.

(** A client that has sent its first flight: the first [handle_timeout] after it
    sets the deadline 1 s ahead, and the flight is then resent after 1, 2, 4 and 8
    seconds; the fifth time is the timeout. *)
Definition waited13 (k : nat) : Log * End13 := replay13 toy (firstn k waits12) xc0.
Lemma waited13_reach k : quiet (removelast (fst (waited13 k))) = true ->
  reach13 toy config_default [48; 7] (toy_key 7) (fst (waited13 k)) (snd (waited13 k)).
Proof. intro H. exists xc0. split; [apply new_client13_start|]. apply replay13_history. exact H. Qed.
Lemma nothing_received13 e : g_rx e = [] -> idle13 e.
Proof. intros H w. unfold has_complete13, pending_frags, Record12.all_frags. rewrite H. reflexivity. Qed.
Lemma waited13_waiting : waiting13 toy (snd (waited13 2)).
Proof. split; [apply nothing_received13; vm_compute; reflexivity|vm_compute; exact I]. Qed.

Example C24_case13 :
  reach13 toy config_default [48; 7] (toy_key 7) (fst (waited13 2)) (snd (waited13 2)) /\
  Forall (fun x => ~ panicked (snd x)) (fst (waited13 2)) /\
  waiting13 toy (snd (waited13 2)) /\ jitter_ok toy /\ 0 < c_hs_timeout config_default /\
  g_flight (end13_eng (snd (waited13 2))) = Armed (10 + sec) /\
  g_connect (end13_eng (snd (waited13 2))) = Armed (5 + 40 * sec) /\
  resends13 toy (snd (waited13 2)) 4 (snd (waited13 6)) /\
  resent13 (snd (waited13 2)) = 0 /\ c_retries config_default = 4 /\
  map snd (fst (waited13 7)) = repeat (Ok None) 6 ++ [Err (ETimeout TO_Handshake)].
Proof.
  split; [apply waited13_reach; vm_compute; reflexivity|].
  split; [apply quiet_forall; vm_compute; reflexivity|].
  split; [exact waited13_waiting|]. split; [exact toy_jitter|].
  split; [reflexivity|]. split; [vm_compute; reflexivity|]. split; [vm_compute; reflexivity|].
  split; [|split; [vm_compute; reflexivity|]; split; vm_compute; reflexivity].
  apply (one_resend13 _ _ (10 + sec) (10 + sec) (Ok None) (snd (waited13 3))); [vm_compute; reflexivity|lia|vm_compute; reflexivity|vm_compute; reflexivity|intros []|intros [k K]; discriminate|].
  apply (one_resend13 _ _ (10 + 3 * sec) (10 + 3 * sec) (Ok None) (snd (waited13 4))); [vm_compute; reflexivity|lia|vm_compute; reflexivity|vm_compute; reflexivity|intros []|intros [k K]; discriminate|].
  apply (one_resend13 _ _ (10 + 7 * sec) (10 + 7 * sec) (Ok None) (snd (waited13 5))); [vm_compute; reflexivity|lia|vm_compute; reflexivity|vm_compute; reflexivity|intros []|intros [k K]; discriminate|].
  apply (one_resend13 _ _ (10 + 15 * sec) (10 + 15 * sec) (Ok None) (snd (waited13 6))); [vm_compute; reflexivity|lia|vm_compute; reflexivity|vm_compute; reflexivity|intros []|intros [k K]; discriminate|].
  apply no_resend13.
Qed.

(** ** C25: the overall deadline *)

(** An unfinished handshake fails at any [handle_timeout] at or after
    [handshake_timeout] from the first one, whatever happened before.  Missing from
    the full property: servers that ask for a client certificate, see
    [C25_server_stalled13_refuted]. *)
Theorem C25_deadline_fires13_partial : forall E cfg cert key s0 h s t0 now,
  fresh13 E cfg cert key s0 -> history13 E s0 h s -> first_tick h = Some t0 ->
  ~ In Close (map fst h) -> ~ was_connected13 h s ->
  c_req_cert cfg = false \/ (exists c, s = XC c) ->
  t0 + c_hs_timeout cfg <= now ->
  fst (end13_call E (Tick now) s) = Err (ETimeout TO_Connect).
Proof.
  intros E cfg cert key s0 h s t0 now H0 H Ht NC NW Hr L.
  destruct (fresh13_eng _ _ _ _ _ H0) as ((b & n & F) & G).
  assert (Kc : g_cfg (end13_eng s0) = cfg) by (rewrite F; reflexivity).
  assert (Kn : g_connect (end13_eng s0) = Unarmed) by (rewrite F; reflexivity).
  destruct s0 as [c0|c0]; cbn [end13_eng] in *.
  - destruct (client_deadline _ _ _ _ H NC) as (c & -> & D1 & D2).
    cbn [end13_call]. destruct (client13_call E (Tick now) c) as [r c1] eqn:Hc.
    destruct (k_client_tick _ _ _ _ _ Hc) as (_ & _ & K). cbn [fst]. apply K.
    unfold armed13. rewrite D2. unfold deadline13. rewrite Kn, Ht, Kc. cbn [due]. lia.
  - assert (Hs : exists c, s = XS c).
    { clear - H. remember (XS c0) as s0 eqn:K. revert c0 K. induction H as [|h s k r s' H IH NP C]; intros c0 K; [eauto|].
      destruct (IH _ K) as [c ->]. cbn [end13_call] in C. destruct (server13_call E k c). injection C as _ <-. eauto. }
    destruct Hs as [c ->]. destruct Hr as [Hr|[? Hr]]; [|discriminate].
    destruct G as (nw & auto & e & G).
    destruct (server_connected E cfg c0 h (XS c) Hr) as (c1 & K & J); [| exact H | exact NC |].
    { split; [exact Kc|]. rewrite G. split; [reflexivity|]. split; [reflexivity|]. left. rewrite <- G. exact Kn. }
    injection K as <-. rewrite Ht in J. destruct J as (J1 & _ & _ & [J|J]); [|destruct NW; exact J].
    cbn [end13_call]. pose proof (server_tick E now c) as T. destruct (server13_call E (Tick now) c) as [r c1].
    apply T. unfold armed13. rewrite J. cbn [due]. lia.
Qed.
Print Assumptions C25_deadline_fires13_partial.

(** The same for a client made from a hybrid ClientHello (automatic version); the
    handshake timeout counts from the moment the server's version is known. *)
Theorem C25_deadline_hybrid13_partial : forall E cfg cert key random fragment kx t0 c0 h s now,
  client13_from_hybrid E random fragment kx cfg cert key t0 = (Ok tt, c0) ->
  history13 E (XC c0) h s -> ~ In Close (map fst h) ->
  t0 + c_hs_timeout cfg <= now ->
  fst (end13_call E (Tick now) s) = Err (ETimeout TO_Connect).
Proof.
  intros E cfg cert key random fragment kx t0 c0 h s now H0 H NC L.
  rewrite from_hybrid in H0. destruct (client13_call E (Tick t0) (hybrid_client E cfg cert key random fragment kx t0)) as [r1 c1] eqn:Hc.
  pose proof (tick_run _ _ _ _ _ H0) as K. rewrite Hc in K. cbn [snd] in K. subst c1.
  destruct (k_client_tick _ _ _ _ _ Hc) as (D1 & D2 & _).
  destruct (client_deadline _ _ _ _ H NC) as (c & -> & D3 & D4).
  cbn [end13_call]. destruct (client13_call E (Tick now) c) as [r c1] eqn:Hc1.
  destruct (k_client_tick _ _ _ _ _ Hc1) as (_ & _ & K). cbn [fst]. apply K.
  unfold armed13. rewrite D4. unfold deadline13. rewrite D2. unfold armed13.
  replace (g_connect (xc_eng (hybrid_client E cfg cert key random fragment kx t0))) with Unarmed by reflexivity.
  replace (g_cfg (xc_eng (hybrid_client E cfg cert key random fragment kx t0))) with cfg by reflexivity.
  cbn [due]. lia.
Qed.
Print Assumptions C25_deadline_hybrid13_partial.
Example C25_hybrid_case : exists c0,
  client13_from_hybrid toy (repeat 3 32) [1; 0; 0; 0] (29, [1], [2]) config_default [48; 7] (toy_key 7) 5 = (Ok tt, c0).
Proof. apply hybrid13_ok. reflexivity. Qed.

(** This error is returned by [handle_timeout] only, never before the deadline, and
    by a server never once it is connected.  Missing from the full property: a
    client, see [C25_connected_client13_refuted]. *)
Theorem C25_deadline_only13_partial : forall E cfg cert key s0 h s c s',
  fresh13 E cfg cert key s0 -> history13 E s0 h s ->
  end13_call E c s = (Err (ETimeout TO_Connect), s') ->
  exists now t0, c = Tick now /\
    first_tick (h ++ [(c, Err (ETimeout TO_Connect))]) = Some t0 /\ t0 + c_hs_timeout cfg <= now /\
    (was_connected13 h s -> exists x, s = XC x).
Proof.
  intros E cfg cert key s0 h s c s' H0 H C.
  destruct (fresh13_eng _ _ _ _ _ H0) as ((b & n & F) & G).
  assert (Kc : g_cfg (end13_eng s0) = cfg) by (rewrite F; reflexivity).
  assert (Kn : g_connect (end13_eng s0) = Unarmed) by (rewrite F; reflexivity).
  destruct (deadline_only13 _ _ _ _ H) as [D1 D2].
  destruct c as [p|cap|now|d|].
  all: try (exfalso; match type of C with end13_call _ ?k _ = _ => assert (P0 : forall now, k <> Tick now) by discriminate end;
            apply (nt_call13 E _ s TO_Connect P0); rewrite C; reflexivity).
  exists now. destruct (d_tick E _ _ _ _ C) as (_ & _ & K). pose proof (proj2 K eq_refl) as D. clear K.
  rewrite first_tick_app. cbn [first_tick].
  exists (match first_tick h with Some t => t | None => now end).
  split; [reflexivity|]. split; [destruct (first_tick h); reflexivity|]. split.
  - unfold armed13 in D. destruct D2 as [D2|D2]; rewrite D2 in D; [|discriminate].
    unfold deadline13 in D. rewrite Kn, Kc in D. rewrite D1, Kc in D. destruct (first_tick h); cbn [due] in D; lia.
  - intros W. destruct s0 as [c0|c0].
    + assert (Hs : exists c, s = XC c).
      { clear - H. remember (XC c0) as s0 eqn:K. revert c0 K. induction H as [|h s k r s' H IH NP C]; intros c0 K; [eauto|].
        destruct (IH _ K) as [c ->]. cbn [end13_call] in C. destruct (client13_call E k c). injection C as _ <-. eauto. }
      exact Hs.
    + exfalso. destruct (ks_history E c0 h s) as (c & -> & J); [| exact H |].
      { destruct G as (nw & auto & e & G). rewrite G. intros [[]|[]]. }
      specialize (J W). unfold armed13 in D. cbn [end13_eng] in D. rewrite J in D. discriminate.
Qed.
Print Assumptions C25_deadline_only13_partial.

(** A client whose server never answers, and a server whose client falls silent
    after its first hello. *)
Definition alone13 : Log * End13 := replay13 toy [Tick 5; Poll 3000; Poll 3000; Tick 2000000000; Poll 3000] xc0.
Definition no_client_cert (c : Config) : Config :=
  mkConfig (c_mtu c) (c_max_rx c) (c_max_tx c) false (c_cookie c) (c_rto c) (c_retries c) (c_hs_timeout c)
    (c_aead_limit c) (c_suites12 c) (c_suites13 c) (c_groups c) (c_psk c).
Definition alone13s : Log * End13 :=
  replay13 toy2 (firstn 6 xs_calls) (new_server13 toy2 (no_client_cert config_default) [48; 9] (toy_key 9) 0).
Example C25_case13 :
  history13 toy xc0 (fst alone13) (snd alone13) /\ first_tick (fst alone13) = Some 5 /\
  ~ In Close (map fst (fst alone13)) /\ ~ was_connected13 (fst alone13) (snd alone13) /\
  fst (end13_call toy (Tick (5 + c_hs_timeout config_default)) (snd alone13)) = Err (ETimeout TO_Connect) /\
  fst (end13_call toy (Tick (4 + c_hs_timeout config_default)) (snd alone13)) <> Err (ETimeout TO_Connect) /\
  history13 toy2 (new_server13 toy2 (no_client_cert config_default) [48; 9] (toy_key 9) 0) (fst alone13s) (snd alone13s) /\
  first_tick (fst alone13s) = Some 5 /\ ~ In Close (map fst (fst alone13s)) /\
  ~ was_connected13 (fst alone13s) (snd alone13s) /\
  fst (end13_call toy2 (Tick (5 + c_hs_timeout config_default)) (snd alone13s)) = Err (ETimeout TO_Connect) /\
  fst (end13_call toy2 (Tick (4 + c_hs_timeout config_default)) (snd alone13s)) <> Err (ETimeout TO_Connect).
Proof.
  split; [apply replay13_history; vm_compute; reflexivity|]. split; [vm_compute; reflexivity|].
  split; [vm_compute; intuition discriminate|]. split; [vm_compute; intuition discriminate|].
  split; [vm_compute; reflexivity|]. split; [vm_compute; discriminate|].
  split; [apply replay13_history; vm_compute; reflexivity|]. split; [vm_compute; reflexivity|].
  split; [vm_compute; intuition discriminate|]. split; [vm_compute; intuition discriminate|].
  split; [vm_compute; reflexivity|]. vm_compute; discriminate.
Qed.

(** An established client fails with the handshake timeout when it is used for
    longer than that: its overall deadline is never switched off, and
    [poll_output] asks to be called then. *)
Theorem C25_connected_client13_refuted : exists E cfg cert key s0 h s now,
  fresh13 E cfg cert key s0 /\ history13 E s0 h s /\ ~ In Close (map fst h) /\
  In OConnected (outputs h) /\
  fst (end13_call E (Poll 3000) s) = Ok (Some (OTimeout now)) /\
  fst (end13_call E (Tick now) s) = Err (ETimeout TO_Connect).
Proof.
  exists toy, config_default, [48; 7], (toy_key 7), xc0, (fst xc_run), (snd xc_run), (5 + c_hs_timeout config_default).
  split; [apply fresh13_to_client; constructor|].
  split; [exact xc_run_history|].
  split; [vm_compute; intuition discriminate|]. split; [vm_compute; tauto|].
  split; vm_compute; reflexivity.
Qed.
Print Assumptions C25_connected_client13_refuted.

(** A server that asks for a client certificate switches off its deadlines as soon
    as a Certificate arrives: if the rest of the client's flight is lost, the
    unfinished handshake neither fails nor retransmits at any later time. *)
Definition small_mtu (m : N) (c : Config) : Config :=
  mkConfig m (c_max_rx c) (c_max_tx c) (c_req_cert c) (c_cookie c) (c_rto c) (c_retries c) (c_hs_timeout c)
    (c_aead_limit c) (c_suites12 c) (c_suites13 c) (c_groups c) (c_psk c).
Definition stall_pair : (Log * End13) * (Log * End13) :=
  pump_log13 toy toy2 2
    (call_log13 toy (Tick 5) ([], new_client13 toy (small_mtu 60 config_default) [48; 7] (toy_key 7) 0))
    (call_log13 toy2 (Tick 5) ([], xs0)).
Definition stall_calls : list Call := Eval vm_compute in
  calls_of (fst (snd stall_pair)) ++
  (match fst (drain_log13 toy 200 (fst stall_pair)) with p :: _ => [Packet p] | [] => [] end) ++
  repeat (Poll 3000) 3.
Definition stall_run : Log * End13 := replay13 toy2 stall_calls xs0.
Theorem C25_server_stalled13_refuted : exists E cfg cert key s0 h s,
  fresh13 E cfg cert key s0 /\ history13 E s0 h s /\ ~ In Close (map fst h) /\
  first_tick h = Some 5 /\ ~ was_connected13 h s /\
  forall now, 5 + c_hs_timeout cfg <= now -> exists s',
    end13_call E (Tick now) s = (Ok None, s') /\
    exists t, fst (end13_call E (Poll 3000) s') = Ok (Some (OTimeout t)).
Proof.
  exists toy2, config_default, [48; 9], (toy_key 9), xs0, (fst stall_run), (snd stall_run).
  split; [constructor|].
  split; [apply replay13_history; vm_compute; reflexivity|].
  split; [vm_compute; intuition discriminate|]. split; [vm_compute; reflexivity|].
  split; [vm_compute; intuition discriminate|].
  intros now _. eexists. split; [vm_compute; reflexivity|]. eexists. vm_compute. reflexivity.
Qed.
Print Assumptions C25_server_stalled13_refuted.

(** ** C26: the announced instant *)

Lemma poll_timeout13_is E s cap t s' : end13_call E (Poll cap) s = (Ok (Some (OTimeout t)), s') ->
  t = poll_timeout13 (end13_eng s') (end13_now s) /\ g_tx (end13_eng s') = [] /\
  exists e, end13_eng s' = maybe_schedule_ack (end13_now s) e.
Proof.
  rewrite poll13_unfold. destruct (end13_events s) as [|[| |m p] l].
  - destruct (eng13_poll_output cap (end13_now s) (end13_eng s)) as [r e] eqn:He. intros [= Hr Hs].
    destruct r as [o| |]; try discriminate. injection Hr as ->. subst s'. rewrite eng_set13.
    revert He. unfold eng13_poll_output, bind, modify. set (e0 := set_g_rx _ (end13_eng s)). clearbody e0.
    assert (K : match poll_app_data13 cap e0 with (Ok None, x) => x = e0 | (Ok (Some (OTimeout _)), _) => False | _ => True end).
    { unfold poll_app_data13, bind, get, ret. destruct (negb (g_release e0)); [reflexivity|].
      destruct (find _ _) as [x|]; [|reflexivity]. destruct (cap <? _); [exact I|]. destruct (r_hs x); exact I. }
    destruct (poll_app_data13 cap e0) as [[[o|]|y|n] x]; try discriminate.
    + unfold ret. intros [= -> _]. contradiction.
    + subst x. set (e1 := maybe_schedule_ack (end13_now s) e0). unfold poll_packet_tx13, bind, get, ret.
      destruct (g_tx e1) as [|p q] eqn:Ht; [|destruct (cap <? len p); discriminate].
      destruct (is_some (g_cn e1) && negb (g_cn_rep e1)); [discriminate|].
      intros [= <- <-]. split; [reflexivity|]. split; [exact Ht|]. exists e0. reflexivity.
  - destruct (end13_certs s); [discriminate|]. destruct (_ <=? cap); discriminate.
  - discriminate.
  - discriminate.
Qed.

(** The announced instant is not after any deadline that is set.  Missing from the
    full property: a deadline that is due but not yet set, see
    [C26_unset_deadline13_refuted]. *)
Theorem C26_announced_is_earliest13_partial : forall E s cap t s' d,
  end13_call E (Poll cap) s = (Ok (Some (OTimeout t)), s') ->
  g_connect (end13_eng s') = Armed d \/ g_flight (end13_eng s') = Armed d \/ g_ackdl (end13_eng s') = Some d -> t <= d.
Proof.
  intros E s cap t s' d H Hd. apply poll_timeout13_is in H. destruct H as (-> & _). unfold poll_timeout13.
  destruct Hd as [Hd|[Hd|Hd]]; rewrite Hd; [destruct (g_flight _) as [| |f]|destruct (g_connect _) as [| |f]|
      destruct (g_connect _) as [| |c]; destruct (g_flight _) as [| |f]];
    cbn [timeout_is_disabled andb is_some negb]; try (destruct (g_ackdl _) as [a|]); cbn [is_some negb];
    repeat match goal with
    | |- context [?x <? ?y] => lazymatch y with context [if _ then _ else _] => fail | _ => destruct (x <? y) eqn:? end
    end; lia.
Qed.
Print Assumptions C26_announced_is_earliest13_partial.

Lemma schedule_keeps now now' e d : now < d ->
  match g_ackdl (maybe_schedule_ack now' e) with Some a => d <= a | None => True end ->
  forall x, g_rx x = g_rx (maybe_schedule_ack now' e) -> g_peer_hs x = g_peer_hs (maybe_schedule_ack now' e) ->
    g_ackdl x = g_ackdl (maybe_schedule_ack now' e) ->
    handshake_in_progress x = handshake_in_progress (maybe_schedule_ack now' e) ->
  match g_ackdl (maybe_schedule_ack now x) with Some a => now < a | None => True end.
Proof.
  intros L Hd x H1 H2 H3 H4. unfold maybe_schedule_ack at 1. destruct (negb (handshake_in_progress x)) eqn:Hp; [exact I|].
  destruct (g_ackdl x) as [a|] eqn:Ha; cbn [is_some].
  - rewrite Ha. rewrite <- H3 in Hd. lia.
  - destruct (negb (ack_help_needed x)) eqn:Hn; [rewrite Ha; exact I|]. exfalso.
    revert H3 Hn. unfold ack_help_needed, pending_frags, Record12.all_frags. rewrite H1, H2. unfold maybe_schedule_ack in *.
    destruct (negb (handshake_in_progress e)) eqn:He.
    { change (handshake_in_progress (set_g_ackdl None e)) with (handshake_in_progress e) in H4. rewrite H4, He in Hp. discriminate. }
    destruct (is_some (g_ackdl e)) eqn:Hs; [intros K; rewrite <- K in Hs; discriminate|].
    destruct (negb (ack_help_needed e)) eqn:Hn; [|discriminate].
    intros _ K. unfold ack_help_needed, pending_frags, Record12.all_frags in Hn. rewrite Hn in K. discriminate.
Qed.

(** Calling [handle_timeout] before the announced instant has no effect, once the
    retransmission deadline is set: nothing to send, same deadlines. *)
Theorem C26_early_call13_partial : forall E cfg cert key h s cap t s1 now r s',
  reach13 E cfg cert key h s1 -> waiting13 E s1 -> jitter_ok E -> 0 < c_hs_timeout cfg ->
  end13_call E (Poll cap) s = (Ok (Some (OTimeout t)), s1) ->
  g_flight (end13_eng s1) <> Unarmed -> g_connect (end13_eng s1) <> Unarmed -> now < t ->
  end13_call E (Tick now) s1 = (r, s') ->
  r = Ok None /\ waiting13 E s' /\ g_tx (end13_eng s') = [] /\
  g_flight (end13_eng s') = g_flight (end13_eng s1) /\ g_connect (end13_eng s') = g_connect (end13_eng s1).
Proof.
  intros E cfg cert key h s cap t s1 now r s' HR W J T HP NF NC L H.
  pose proof (fun d K => N.lt_le_trans _ _ _ L (C26_announced_is_earliest13_partial E s cap t s1 d HP K)) as Q.
  destruct (poll_timeout13_is _ _ _ _ _ HP) as (_ & Htx & ep & Hep).
  assert (AA : match g_ackdl (end13_eng s1) with Some a => t <= a | None => True end).
  { destruct (g_ackdl (end13_eng s1)) eqn:K; [|exact I]. eapply C26_announced_is_earliest13_partial; [exact HP|auto]. }
  destruct (waiting_tick_unfold E now s1 W) as (o & Hu & W2). rewrite Hu in H. clear Hu.
  set (e0 := set_g_orc o (end13_eng s1)) in *.
  assert (Ea : arm13 now e0 = e0).
  { unfold arm13. change (g_connect e0) with (g_connect (end13_eng s1)). change (g_flight e0) with (g_flight (end13_eng s1)).
    destruct (g_connect (end13_eng s1)); [|congruence|]; destruct (g_flight (end13_eng s1)); try congruence; reflexivity. }
  rewrite timeout13_unfold, Ea in *. change (g_connect e0) with (g_connect (end13_eng s1)) in *.
  replace (due (g_connect (end13_eng s1)) now) with false in *.
  2:{ unfold due. destruct (g_connect (end13_eng s1)) as [| |c] eqn:K; try reflexivity. specialize (Q c (or_introl eq_refl)). lia. }
  rewrite rest_unfold in *. change (g_flight e0) with (g_flight (end13_eng s1)) in *.
  assert (KK : exists d, (match g_flight (end13_eng s1) with
     | Armed f => if f <=? now then if backoff_can_retry (g_bo e0) then (flight_resend13 E ;;; ack_stage E now) (rearm13 E now e0) else (Err (ETimeout TO_Handshake), e0) else ack_stage E now e0
     | _ => (Ok tt, e0) end) = (Ok tt, set_g_ackdl d e0)).
  { assert (E0 : set_g_ackdl (g_ackdl e0) e0 = e0) by (destruct e0; reflexivity).
    destruct (g_flight (end13_eng s1)) as [| |f] eqn:K; [exists (g_ackdl e0); rewrite E0; reflexivity|congruence|].
    specialize (Q f (or_intror (or_introl eq_refl))). replace (f <=? now) with false by lia.
    assert (A : match g_ackdl (maybe_schedule_ack now e0) with Some a => now < a | None => True end).
    { rewrite Hep in AA. apply (schedule_keeps now (end13_now s) ep t L AA e0); unfold e0; rewrite Hep; reflexivity. }
    unfold ack_stage, maybe_flush_ack, bind, modify, get. destruct (maybe_ack_set now e0) as (d & Hd). rewrite Hd in *.
    exists d. change (g_ackdl (set_g_ackdl d e0)) with d in *. destruct d as [d|]; [|reflexivity].
    cbv beta iota. destruct (now <? d) eqn:Kd; [reflexivity|lia]. }
  destruct KK as [d KK]. rewrite KK in H, W2. injection H as <- <-. rewrite eng_set13. cbn [snd] in W2.
  split; [reflexivity|]. split; [exact W2|]. unfold e0. cbn. rewrite Htx. auto.
Qed.
Print Assumptions C26_early_call13_partial.

(** Non-trivial case: after the second [handle_timeout] the client announces its
    retransmission deadline, one second ahead. *)
Example C26_case13 : exists p, let x := replay13 toy [Tick 5; Poll 1500; Tick 10; Poll 1500] xc0 in
  map snd (fst x) = [Ok None; Ok (Some (OPacket p)); Ok None; Ok (Some (OTimeout (10 + sec)))] /\
  waiting13 toy (snd x) /\
  g_flight (end13_eng (snd x)) = Armed (10 + sec) /\ g_connect (end13_eng (snd x)) = Armed (5 + 40 * sec).
Proof.
  eexists. cbv zeta. split; [vm_compute; reflexivity|].
  split; [split; [apply nothing_received13; vm_compute; reflexivity|vm_compute; exact I]|]. split; vm_compute; reflexivity.
Qed.

(** The full property is false, as for DTLS 1.2: a new client, after its first
    [handle_timeout], sends its ClientHello and announces the overall deadline, 40 s
    ahead, although the flight should be resent after 1 s.  If the caller then calls
    [handle_timeout] at the announced instant, that is the timeout of the whole
    handshake, with no retransmission at all. *)
Theorem C26_unset_deadline13_refuted : exists E cfg cert key h s t s' p,
  reach13 E cfg cert key h s /\ jitter_ok E /\ waiting13 E s /\
  h = [(Tick 5, Ok None); (Poll 1500, Ok (Some (OPacket p)))] /\
  end13_call E (Poll 1500) s = (Ok (Some (OTimeout t)), s') /\
  t = 5 + c_hs_timeout cfg /\ 5 + 4 * c_rto cfg < t /\ resent13 s' = 0 /\ 0 < c_retries cfg /\
  fst (end13_call E (Tick t) s') = Err (ETimeout TO_Connect).
Proof.
  pose (x := replay13 toy [Tick 5; Poll 1500] xc0).
  exists toy, config_default, [48; 7], (toy_key 7), (fst x), (snd x). do 3 eexists.
  split.
  { exists xc0. split; [apply new_client13_start|]. apply replay13_history. vm_compute. reflexivity. }
  split; [exact toy_jitter|]. split.
  { split; [apply nothing_received13; vm_compute; reflexivity|vm_compute; exact I]. }
  split; [vm_compute; reflexivity|]. split; [vm_compute; reflexivity|]. split; [vm_compute; reflexivity|].
  split; [vm_compute; reflexivity|]. split; [vm_compute; reflexivity|]. split; [vm_compute; reflexivity|].
  vm_compute. reflexivity.
Qed.
Print Assumptions C26_unset_deadline13_refuted.
