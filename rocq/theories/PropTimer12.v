(** C24, C25 and C26 for DTLS 1.2: the handshake timers.

    Vocabulary: [Tick now] is [handle_timeout(now)], [Poll cap] is [poll_output] with
    a buffer of [cap] bytes, [Packet p] is [handle_packet]; times are nanoseconds.
    [reach12 E cfg auth h s]: the endpoint (client or server) is in state [s] after
    the calls and replies [h], none of which panicked.  [first_tick h] is the time
    of the first [handle_timeout] of [h].  [was_connected h s]: Connected was
    reported in [h] or is waiting to be polled.  [waiting E s]: in the middle of the
    handshake, the peer's next message has not arrived.  [resent s]: how many times
    the current flight was retransmitted.  [about n d]: [d] is [n] plus a jitter of
    at most a quarter second either way, and at least 50 ms.
    [en_flight]/[en_connect]: the retransmission and the overall deadline. *)
From Verif Require Import Prelude PreludeFacts Types Env Config Context12 Monad MonadFacts
  Record12 Timer Engine12 Client12 Server12 Toy History12 Conn12 View12 Poll12Proofs Events12
  EndFrame12 ClientInv12 ClientStep12 ServerInv12 ServerStep12 Timer12Proofs Wait12Proofs.

(** ** C24: back-off *)

(** One call of [handle_timeout] on a waiting endpoint before the overall deadline.
    Before the retransmission deadline it does nothing; at or after it, it resends
    the flight and sets the next deadline, doubled, unless the flight was resent
    [flight_retries] times already: then it fails. *)
Theorem C24_timeout12 : forall E cfg auth h s now r s',
  reach12 E cfg auth h s -> waiting E s -> jitter_ok E -> 0 < c_hs_timeout cfg ->
  match en_connect (end_eng s) with Armed c => now < c | _ => True end ->
  end12_call E (Tick now) s = (r, s') ->
  match en_flight (end_eng s) with
  | Disabled => False
  | Unarmed =>
    r = Ok None /\ waiting E s' /\ en_tx (end_eng s') = en_tx (end_eng s) /\ resent s' = resent s /\
    exists d, about (c_rto cfg * 2 ^ resent s) d /\ en_flight (end_eng s') = Armed (now + d)
  | Armed f =>
    if now <? f then
      r = Ok None /\ waiting E s' /\ en_tx (end_eng s') = en_tx (end_eng s) /\ resent s' = resent s /\
      en_flight (end_eng s') = Armed f
    else if resent s <? c_retries cfg then
      ~ timer_reply r /\ resent s' = resent s + 1 /\
      (exists d, about (c_rto cfg * 2 ^ resent s') d /\ en_flight (end_eng s') = Armed (now + d)) /\
      (r = Ok None -> waiting E s') /\
      (exists x, flight_resend E x = (match r with Ok _ => Ok tt | Err e => Err e | Panic n => Panic n end, end_eng s') /\
        same_wire x (end_eng s))
    else r = Err (ETimeout TO_Handshake)
  end.
Proof. intros. eapply waiting_tick; eassumption. Qed.
Print Assumptions C24_timeout12.

(** A run of [handle_timeout] calls, each at or after the retransmission deadline
    and before the overall one, each returning Ok. *)
Inductive resends (E : Env) : End12 -> nat -> End12 -> Prop :=
| no_resend s : resends E s 0 s
| one_resend s now f s1 n s2 :
    en_flight (end_eng s) = Armed f -> f <= now ->
    match en_connect (end_eng s) with Armed c => now < c | _ => True end ->
    end12_call E (Tick now) s = (Ok None, s1) -> resends E s1 n s2 -> resends E s (S n) s2.

Lemma resends_count E cfg auth n s s' : jitter_ok E -> 0 < c_hs_timeout cfg -> resends E s n s' ->
  forall h, reach12 E cfg auth h s -> Forall (fun x => ~ panicked (snd x)) h -> waiting E s ->
  exists h', reach12 E cfg auth h' s' /\ waiting E s' /\
    resent s' = resent s + N.of_nat n /\ resent s' <= c_retries cfg.
Proof.
  intros J T R. induction R as [s|s now f s1 n s2 F L C K R IH]; intros h HR NP W.
  - exists h. split; [exact HR|]. split; [exact W|]. split; [lia|]. unfold resent.
    rewrite (proj1 (reach_connect _ _ _ _ _ HR)). lia.
  - pose proof (C24_timeout12 E cfg auth h s now _ _ HR W J T C K) as Q. rewrite F in Q.
    replace (now <? f) with false in Q by lia.
    destruct (resent s <? c_retries cfg) eqn:Hk; [|discriminate].
    destruct Q as (_ & Q1 & _ & Q2 & _).
    destruct HR as (s0 & H0 & HH).
    destruct (IH (h ++ [(Tick now, Ok None)])) as (h' & A & B & D & F').
    + exists s0. split; [exact H0|]. econstructor; [exact HH|exact NP|exact K].
    + apply Forall_app. split; [exact NP|]. constructor; [intros []|constructor].
    + apply Q2. reflexivity.
    + exists h'. split; [exact A|]. split; [exact B|]. split; [lia|exact F'].
Qed.

(** While the endpoint waits, the flight is resent at most [flight_retries] times;
    after that many the next due [handle_timeout] is the handshake timeout. *)
Theorem C24_bounded_retries12 : forall E cfg auth h s n s',
  jitter_ok E -> 0 < c_hs_timeout cfg ->
  reach12 E cfg auth h s -> Forall (fun x => ~ panicked (snd x)) h -> waiting E s ->
  resends E s n s' ->
  resent s + N.of_nat n <= c_retries cfg /\
  (resent s + N.of_nat n = c_retries cfg -> forall f now,
     en_flight (end_eng s') = Armed f -> f <= now ->
     match en_connect (end_eng s') with Armed c => now < c | _ => True end ->
     fst (end12_call E (Tick now) s') = Err (ETimeout TO_Handshake)).
Proof.
  intros E cfg auth h s n s' J T HR NP W R.
  destruct (resends_count E cfg auth n s s' J T R h HR NP W) as (h' & HR' & W' & K1 & K2).
  split; [lia|]. intros Hn f now F L C. destruct (end12_call E (Tick now) s') as [r s2] eqn:Hc.
  pose proof (C24_timeout12 E cfg auth h' s' now _ _ HR' W' J T C Hc) as Q. rewrite F in Q.
  replace (now <? f) with false in Q by lia. replace (resent s' <? c_retries cfg) with false in Q by lia.
  cbn [fst]. exact Q.
Qed.
Print Assumptions C24_bounded_retries12.

(** A client that has sent its first flight: the first [handle_timeout] after it
    sets the deadline 1 s ahead, and the flight is then resent after 1, 2, 4 and 8
    seconds; the fifth time is the timeout. *)
Definition waits12 : list Call := map Tick [5; 10; 10 + sec; 10 + 3 * sec; 10 + 7 * sec; 10 + 15 * sec; 10 + 31 * sec].
Definition waited12 (k : nat) : Log * End12 := replay toy (firstn k waits12) (new_client toy config_default (toy_auth 7) 0).
Lemma waited12_reach k : quiet (removelast (fst (waited12 k))) = true ->
  reach12 toy config_default (toy_auth 7) (fst (waited12 k)) (snd (waited12 k)).
Proof.
  intro H. exists (new_client toy config_default (toy_auth 7) 0). split; [apply new_client_start|].
  apply replay_history. exact H.
Qed.
Lemma waited12_waiting : waiting toy (snd (waited12 2)).
Proof.
  split; [split|vm_compute; exact I]; [|vm_compute; exact I].
  intro w. replace (has_complete_handshake _ w) with
    (match concat (en_rx (end_eng (snd (waited12 2)))) with [] => false | _ => true end); [vm_compute; reflexivity|].
  unfold has_complete_handshake. replace (en_rx (end_eng (snd (waited12 2)))) with (@nil (list Rec12)) by (vm_compute; reflexivity).
  reflexivity.
Qed.
Lemma toy_jitter : jitter_ok toy.
Proof. intro t. cbn. lia. Qed.

Example C24_case :
  reach12 toy config_default (toy_auth 7) (fst (waited12 2)) (snd (waited12 2)) /\
  Forall (fun x => ~ panicked (snd x)) (fst (waited12 2)) /\
  waiting toy (snd (waited12 2)) /\ jitter_ok toy /\ 0 < c_hs_timeout config_default /\
  en_flight (end_eng (snd (waited12 2))) = Armed (10 + sec) /\
  en_connect (end_eng (snd (waited12 2))) = Armed (5 + 40 * sec) /\
  resends toy (snd (waited12 2)) 4 (snd (waited12 6)) /\
  resent (snd (waited12 2)) = 0 /\ c_retries config_default = 4 /\
  map snd (fst (waited12 7)) = repeat (Ok None) 6 ++ [Err (ETimeout TO_Handshake)].
Proof.
  split; [apply waited12_reach; vm_compute; reflexivity|].
  split; [apply quiet_forall; vm_compute; reflexivity|].
  split; [exact waited12_waiting|]. split; [exact toy_jitter|].
  split; [reflexivity|]. split; [vm_compute; reflexivity|]. split; [vm_compute; reflexivity|].
  split; [|split; [vm_compute; reflexivity|]; split; vm_compute; reflexivity].
  apply (one_resend _ _ (10 + sec) (10 + sec) (snd (waited12 3))); [vm_compute; reflexivity|lia|vm_compute; reflexivity|vm_compute; reflexivity|].
  apply (one_resend _ _ (10 + 3 * sec) (10 + 3 * sec) (snd (waited12 4))); [vm_compute; reflexivity|lia|vm_compute; reflexivity|vm_compute; reflexivity|].
  apply (one_resend _ _ (10 + 7 * sec) (10 + 7 * sec) (snd (waited12 5))); [vm_compute; reflexivity|lia|vm_compute; reflexivity|vm_compute; reflexivity|].
  apply (one_resend _ _ (10 + 15 * sec) (10 + 15 * sec) (snd (waited12 6))); [vm_compute; reflexivity|lia|vm_compute; reflexivity|vm_compute; reflexivity|].
  apply no_resend.
Qed.

(** ** C25: the overall deadline *)

(** An unfinished handshake fails at any [handle_timeout] at or after
    [handshake_timeout] from the first one, whatever happened before. *)
Theorem C25_deadline_fires12 : forall E cfg auth h s t0 now,
  reach12 E cfg auth h s -> first_tick h = Some t0 ->
  ~ In Close (map fst h) -> ~ was_connected h s ->
  t0 + c_hs_timeout cfg <= now ->
  fst (end12_call E (Tick now) s) = Err (ETimeout TO_Connect).
Proof.
  intros E cfg auth h s t0 now HR Ht NC NW L.
  assert (Rl : end_release s = false).
  { destruct (end_release s) eqn:K; [|reflexivity]. exfalso. apply NW, (was_connected_release _ _ _ _ _ HR), K. }
  destruct (reach_running _ _ _ _ _ HR NC Rl) as [Hc _].
  destruct (reach_connect _ _ _ _ _ HR) as [Hcfg Hcn]. rewrite Ht in Hcn. destruct Hcn as [Hcn|Hcn]; [contradiction|].
  rewrite tick_unfold. destruct (draw_random_eng E now s) as [o Ho]. rewrite Ho, handle_timeout_spec.
  rewrite arm_connect. ecbn. rewrite Hcn. cbn [due]. replace (_ <=? now) with true by lia. reflexivity.
Qed.
Print Assumptions C25_deadline_fires12.

(** And this error is returned in no other case: not earlier, not after the
    handshake finished, not after [close]. *)
Theorem C25_deadline_only12 : forall E cfg auth h s c s',
  reach12 E cfg auth h s -> end12_call E c s = (Err (ETimeout TO_Connect), s') ->
  exists now t0, c = Tick now /\
    first_tick (h ++ [(c, Err (ETimeout TO_Connect))]) = Some t0 /\ t0 + c_hs_timeout cfg <= now /\
    ~ was_connected h s /\ ~ end_closed s.
Proof.
  intros E cfg auth h s c s' HR H. destruct c as [p|cap|now|d|].
  - exfalso. apply (nt_packet E p s TO_Connect). rewrite H. reflexivity.
  - exfalso. pose proof (reach_poll_wf _ _ _ _ _ HR) as [W1 W2]. pose proof (poll_pops E s cap _ s' W1 W2 H) as P.
    destruct (pending s) as [|o l]; [destruct P as (t & P & _); discriminate|].
    destruct (_ <=? _); [destruct P; discriminate|]. destruct o; first [destruct P; discriminate|destruct P].
  - exists now. rewrite tick_unfold in H. destruct (draw_random_eng E now s) as [o Ho]. rewrite Ho, handle_timeout_spec in H.
    destruct (reach_connect _ _ _ _ _ HR) as [Hcfg Hcn].
    assert (ND : en_connect (end_eng s) = Disabled -> False).
    { intros Hd. rewrite arm_connect in H. ecbn_in H. rewrite Hd in H. cbn [due] in H.
      destruct (due (en_flight _) now).
      - destruct (backoff_can_retry _).
        + match type of H with context [flight_resend E ?x] =>
            pose proof (nt_resend E x TO_Connect) as K; destruct (flight_resend E x) as [[u|y|y] e] end.
          * apply (nt_packet E [] (set_end_eng e (draw_random E now (set_end_now now s))) TO_Connect). rewrite H. reflexivity.
          * injection H as -> _. apply K. reflexivity.
          * discriminate.
        + discriminate.
      - eapply (nt_packet E []). rewrite H. reflexivity. }
    destruct Hcn as [Hcn|Hcn]; [contradiction|].
    rewrite arm_connect in H. ecbn_in H.
    rewrite first_tick_app. cbn [first_tick].
    exists (match first_tick h with Some t => t | None => now end).
    split; [reflexivity|]. split; [destruct (first_tick h); reflexivity|]. split.
    + destruct (due match en_connect (end_eng s) with Unarmed => _ | t => t end now) eqn:D.
      * rewrite Hcn, Hcfg in D. destruct (first_tick h); cbn [due] in D; lia.
      * exfalso. destruct (due (en_flight _) now).
        -- destruct (backoff_can_retry _).
           ++ match type of H with context [flight_resend E ?x] =>
                pose proof (nt_resend E x TO_Connect) as K; destruct (flight_resend E x) as [[u|y|y] e] end.
              ** apply (nt_packet E [] (set_end_eng e (draw_random E now (set_end_now now s))) TO_Connect). rewrite H. reflexivity.
              ** injection H as -> _. apply K. reflexivity.
              ** discriminate.
           ++ discriminate.
        -- eapply (nt_packet E []). rewrite H. reflexivity.
    + split.
      * intros HW. apply (was_connected_release _ _ _ _ _ HR) in HW.
        apply ND, (reach_stopped _ _ _ _ _ HR). auto.
      * intros HW. apply ND, (reach_stopped _ _ _ _ _ HR). auto.
  - exfalso. eapply (nt_send E d s TO_Connect). rewrite H. reflexivity.
  - exfalso. eapply (nt_close E s TO_Connect). rewrite H. reflexivity.
Qed.
Print Assumptions C25_deadline_only12.

(** A client whose server never answers. *)
Example C25_case :
  reach12 toy config_default (toy_auth 7) (fst (waited12 3)) (snd (waited12 3)) /\
  first_tick (fst (waited12 3)) = Some 5 /\ ~ In Close (map fst (fst (waited12 3))) /\
  ~ was_connected (fst (waited12 3)) (snd (waited12 3)) /\
  fst (end12_call toy (Tick (5 + c_hs_timeout config_default)) (snd (waited12 3))) = Err (ETimeout TO_Connect) /\
  fst (end12_call toy (Tick (4 + c_hs_timeout config_default)) (snd (waited12 3))) = Ok None.
Proof.
  split; [apply waited12_reach; vm_compute; reflexivity|]. split; [vm_compute; reflexivity|].
  split; [vm_compute; intuition discriminate|]. split; [vm_compute; intuition discriminate|].
  split; vm_compute; reflexivity.
Qed.

(** ** C26: the announced instant *)

Lemma poll_timeout_is E s cap t s' : end12_call E (Poll cap) s = (Ok (Some (OTimeout t)), s') ->
  t = poll_timeout (end_eng s) (end_now s).
Proof.
  rewrite poll_unfold. destruct (end_events s) as [|[| |m p] l].
  - unfold eng12_poll_output, poll_app_data, poll_packet_tx, bind, get, modify, ret. ecbn.
    destruct (negb (en_release (end_eng s))).
    2: destruct (find _ _); [destruct (cap <? _); [discriminate|destruct (r_hs r); discriminate]|].
    all: ecbn; destruct (en_tx (end_eng s)); [|destruct (cap <? _); discriminate].
    all: ecbn; destruct (en_cn_recv (end_eng s) && negb (en_cn_rep (end_eng s))); [discriminate|].
    all: intros [= <- _]; reflexivity.
  - destruct (end_certs s); [discriminate|]. destruct (_ <=? cap); discriminate.
  - discriminate.
  - discriminate.
Qed.

(** The announced instant is not after any deadline that is set.  Missing from the
    full property: a deadline that is due but not yet set, see
    [C26_unset_deadline12_refuted]. *)
Theorem C26_announced_is_earliest12_partial : forall E cfg auth h s cap t s' d,
  reach12 E cfg auth h s -> end12_call E (Poll cap) s = (Ok (Some (OTimeout t)), s') ->
  en_connect (end_eng s) = Armed d \/ en_flight (end_eng s) = Armed d -> t <= d.
Proof.
  intros E cfg auth h s cap t s' d HR H Hd. apply poll_timeout_is in H. subst t. unfold poll_timeout.
  destruct Hd as [Hd|Hd]; rewrite Hd; [destruct (en_flight _) as [| |f]|destruct (en_connect _) as [| |f]];
    cbn [timeout_is_disabled andb]; try lia; destruct (_ <? _) eqn:K; lia.
Qed.
Print Assumptions C26_announced_is_earliest12_partial.

(** Calling [handle_timeout] before the announced instant has no effect, once the
    retransmission deadline is set: nothing to send, same deadlines. *)
Theorem C26_early_call12_partial : forall E cfg auth h s cap t s0 now r s',
  reach12 E cfg auth h s -> waiting E s -> jitter_ok E -> 0 < c_hs_timeout cfg ->
  end12_call E (Poll cap) s = (Ok (Some (OTimeout t)), s0) ->
  en_flight (end_eng s) <> Unarmed -> en_connect (end_eng s) <> Unarmed -> now < t ->
  end12_call E (Tick now) s = (r, s') ->
  r = Ok None /\ waiting E s' /\ en_tx (end_eng s') = en_tx (end_eng s) /\
  en_flight (end_eng s') = en_flight (end_eng s) /\ en_connect (end_eng s') = en_connect (end_eng s).
Proof.
  intros E cfg auth h s cap t s0 now r s' HR W J T HP NF NC L H.
  assert (LC : match en_connect (end_eng s) with Armed c => now < c | _ => True end).
  { destruct (en_connect (end_eng s)) eqn:K; auto.
    eapply N.lt_le_trans; [exact L|]. eapply C26_announced_is_earliest12_partial; [exact HR|exact HP|auto]. }
  pose proof (C24_timeout12 E cfg auth h s now r s' HR W J T LC H) as Q.
  destruct (en_flight (end_eng s)) as [| |f] eqn:F; [contradiction|congruence|].
  assert (Lf : now < f).
  { eapply N.lt_le_trans; [exact L|]. eapply C26_announced_is_earliest12_partial; [exact HR|exact HP|auto]. }
  replace (now <? f) with true in Q by lia. destruct Q as (Q1 & Q2 & Q3 & _ & Q5).
  split; [exact Q1|]. split; [exact Q2|]. split; [exact Q3|]. split; [exact Q5|].
  destruct (tick_connect_end E now s r s' H) as [_ [K|K]].
  - exfalso. apply (proj1 (waiting_running E s' (call_inv _ _ _ _ _ (reach_end_inv _ _ _ _ _ HR) H) Q2)). exact K.
  - rewrite K. destruct (en_connect (end_eng s)); congruence.
Qed.
Print Assumptions C26_early_call12_partial.

(** Non-trivial case: after the second [handle_timeout] the client announces its
    retransmission deadline, one second ahead. *)
Example C26_case : exists p, let x := replay toy [Tick 5; Poll 1500; Tick 10] (new_client toy config_default (toy_auth 7) 0) in
  map snd (fst x) = [Ok None; Ok (Some (OPacket p)); Ok None] /\
  fst (end12_call toy (Poll 1500) (snd x)) = Ok (Some (OTimeout (10 + sec))) /\
  en_flight (end_eng (snd x)) = Armed (10 + sec) /\ en_connect (end_eng (snd x)) = Armed (5 + 40 * sec).
Proof. eexists. cbv zeta. split; [vm_compute; reflexivity|]. split; [vm_compute; reflexivity|]. split; vm_compute; reflexivity. Qed.

(** The full property is false: a caller that sleeps until the announced instant
    can miss every retransmission.  The retransmission deadline of a flight is set
    by the first [handle_timeout] after the one that sent it, but it is not
    announced before that: a new client, after its first [handle_timeout], sends
    its ClientHello and announces the overall deadline, 40 s ahead, although the
    flight should be resent after 1 s.  If the caller then calls [handle_timeout]
    at the announced instant, that is the timeout of the whole handshake, with no
    retransmission at all. *)
Theorem C26_unset_deadline12_refuted : exists E cfg auth h s t s' p,
  reach12 E cfg auth h s /\ jitter_ok E /\ waiting E s /\
  h = [(Tick 5, Ok None); (Poll 1500, Ok (Some (OPacket p)))] /\
  end12_call E (Poll 1500) s = (Ok (Some (OTimeout t)), s') /\
  t = 5 + c_hs_timeout cfg /\ 5 + 4 * c_rto cfg < t /\ resent s' = 0 /\ 0 < c_retries cfg /\
  fst (end12_call E (Tick t) s') = Err (ETimeout TO_Connect).
Proof.
  pose (x := replay toy [Tick 5; Poll 1500] (new_client toy config_default (toy_auth 7) 0)).
  exists toy, config_default, (toy_auth 7), (fst x), (snd x). do 3 eexists.
  split.
  { exists (new_client toy config_default (toy_auth 7) 0). split; [apply new_client_start|].
    apply replay_history. vm_compute. reflexivity. }
  split; [exact toy_jitter|]. split.
  { split; [split|vm_compute; exact I]; [|vm_compute; exact I]. intro w. unfold has_complete_handshake.
    replace (en_rx (end_eng (snd x))) with (@nil (list Rec12)) by (vm_compute; reflexivity). reflexivity. }
  split; [vm_compute; reflexivity|]. split; [vm_compute; reflexivity|]. split; [vm_compute; reflexivity|].
  split; [vm_compute; reflexivity|]. split; [vm_compute; reflexivity|]. split; [vm_compute; reflexivity|].
  vm_compute. reflexivity.
Qed.
Print Assumptions C26_unset_deadline12_refuted.
