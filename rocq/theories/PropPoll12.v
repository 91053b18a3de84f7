(** C18 (queue limits), C19 (too small buffers) and C20 (polling), for DTLS 1.2. *)
From Verif Require Import Prelude Types Env Config Context12 Codec12 Record12 Monad MonadFacts Timer Engine12
  Engine12Frame Client12 Server12 Toy History12 History12Facts Conn12 Send12Proofs Queue12Proofs Poll12Proofs.

(** ** C18 *)

(** In every state reachable by API calls the receive queue holds at most
    [max_queue_rx] datagrams and the transmit queue at most [max_queue_tx]. *)
Theorem C18_queues_bounded : forall E cfg auth h s, reach12 E cfg auth h s ->
  len (en_rx (end_eng s)) <= c_max_rx cfg /\ len (en_tx (end_eng s)) <= c_max_tx cfg.
Proof. exact queues_bounded. Qed.
Print Assumptions C18_queues_bounded.

(** The endpoint is connected and not closed. *)
Definition open12 (s : End12) : Prop :=
  match s with
  | Cl c => cl_state c = CS_AwaitApplicationData
  | Sv s => sv_state s = SS_AwaitApplicationData
  end.

(** Overflow of the transmit queue is reported: a write either succeeds and adds
    its record at the end of the queue, or returns an error (or hits the nonce
    panic of a provider that cannot seal) and leaves the queue as it was. *)
Theorem C18_send_all_or_error : forall E cfg auth h s d r s', reach12 E cfg auth h s -> open12 s ->
  end12_call E (Send d) s = (r, s') ->
  match r with
  | Ok _ => exists rec, rec <> [] /\
      concat (en_tx (end_eng s')) = concat (en_tx (end_eng s)) ++ rec
  | _ => en_tx (end_eng s') = en_tx (end_eng s)
  end.
Proof.
  intros E cfg auth h s d r s' _ Ho H.
  assert (G : forall e, wp (create_record E CT_APP 1 false d) (fun r e' =>
    match r with
    | Ok _ => exists rec, rec <> [] /\ concat (en_tx e') = concat (en_tx e) ++ rec
    | _ => en_tx e' = en_tx e
    end) e).
  { intros e. unfold create_record. wpuse create_record_spec. intros x e' (o & sv & Hx).
    destruct x; [|destruct Hx as (_ & -> & _); reflexivity|destruct Hx as (_ & -> & _); reflexivity].
    destruct Hx as (_ & _ & frag & _ & _ & ->). eexists. split; [|].
    2:{ cbn [en_tx set_en_tx bump set_en_orc set_en_saved].
        destruct (can_append _ _ _) eqn:Hca.
        - apply concat_append_last. eapply can_append_nonnil. exact Hca.
        - rewrite concat_app. cbn. rewrite app_nil_r. reflexivity. }
    discriminate. }
  destruct s as [c|c]; cbn [open12 end12_call client12_call server12_call] in *;
    unfold no_output, client12_send, server12_send, bind, get, ceng, seng, zoom, ret in H; rewrite Ho in H.
  - specialize (G (cl_eng c)). unfold wp in G. destruct (create_record E CT_APP 1 false d (cl_eng c)) as [x e'].
    cbn [fst snd] in G. destruct x; injection H; clear H; intros; subst; exact G.
  - specialize (G (sv_eng c)). unfold wp in G. destruct (create_record E CT_APP 1 false d (sv_eng c)) as [x e'].
    cbn [fst snd] in G. destruct x; injection H; clear H; intros; subst; exact G.
Qed.
Print Assumptions C18_send_all_or_error.

(** A full receive queue is reported: a datagram with acceptable records is
    refused with [ReceiveQueueFull] and the queue is not touched. *)
Theorem C18_receive_overflow : forall E cfg auth h s p rs e' r s', reach12 E cfg auth h s ->
  len (en_rx (end_eng s)) = c_max_rx (en_cfg (end_eng s)) ->
  records_parse E p (end_eng s) = (Ok rs, e') -> rs <> [] ->
  end12_call E (Packet p) s = (r, s') -> r = Err ERxFull /\ en_rx (end_eng s') = en_rx (end_eng s).
Proof.
  intros E cfg auth h s p rs e' r s' _ Hf Hp Hn H.
  assert (Hk : en_rx (end_eng s) = en_rx e' /\ en_cfg (end_eng s) = en_cfg e').
  { pose proof (fr_records_parse E (fun a b => en_rx a = en_rx b /\ en_cfg a = en_cfg b)) as HH.
    specialize (HH ltac:(split; [intros x; auto|intros x y z [] []; split; congruence])
      ltac:(split; reflexivity) ltac:(split; reflexivity) ltac:(split; reflexivity) p (end_eng s)). rewrite Hp in HH. exact HH. }
  destruct Hk as [Hrx Hcfg].
  assert (G : eng12_parse_packet E p (end_eng s) = (Err ERxFull, e')).
  { unfold eng12_parse_packet, bind. rewrite Hp. destruct rs as [|r0 rs]; [congruence|].
    unfold insert_incoming, bind, get. rewrite <- Hrx, <- Hcfg. replace (_ <=? _) with true by lia. reflexivity. }
  destruct s as [c|c]; cbn [end12_call client12_call server12_call end_eng] in *;
    unfold no_output, client12_handle_packet, server12_handle_packet, bind, public, ceng, seng, zoom in H;
    rewrite G in H; injection H; clear H; intros; subst; split; try reflexivity; symmetry; exact Hrx.
Qed.
Print Assumptions C18_receive_overflow.

(** A connected pair of endpoints, with nothing queued. *)
Example C18_case : open12 (snd cl_run) /\ open12 (snd sv_run) /\
  reach12 toy config_default (toy_auth 7) (fst cl_run) (snd cl_run) /\
  fst (end12_call toy (Send [1; 2; 3]) (snd cl_run)) = Ok None.
Proof.
  split; [vm_compute; reflexivity|]. split; [vm_compute; reflexivity|].
  split; [exact cl_run_reach|vm_compute; reflexivity].
Qed.

(** ** C19 *)

(** The bytes of an output that carries bytes. *)
Definition payload (o : Output) : bytes :=
  match o with OPacket p => p | OAppData d => d | _ => [] end.

(** A reply "buffer too small, [n] bytes needed" means that the buffer is smaller
    than [n], a buffer of [n] bytes suffices, and the call has no effect: any later
    poll, with any buffer, returns what it would have returned without it. *)
Theorem C19_too_small_loses_nothing : forall E cfg auth h s cap n s', reach12 E cfg auth h s ->
  end12_call E (Poll cap) s = (Ok (Some (OTooSmall n)), s') ->
  cap < n /\
  (forall cap', end12_call E (Poll cap') s' = end12_call E (Poll cap') s) /\
  (exists o, (o = OPacket (payload o) \/ o = OAppData (payload o)) /\ len (payload o) = n /\
     forall cap', n <= cap' -> fst (end12_call E (Poll cap') s) = Ok (Some o)).
Proof.
  intros E cfg auth h s cap n s' HR H. pose proof (reach_poll_wf _ _ _ _ _ HR) as [W1 W2].
  pose proof (poll_pops E s cap _ s' W1 W2 H) as P.
  destruct (pending s) as [|o rest] eqn:Hp.
  { destruct P as (t & HH & _). discriminate. }
  assert (Hnt := pending_no_timeout s o). rewrite Hp in Hnt. specialize (Hnt (or_introl eq_refl)).
  destruct (out_size o <=? cap) eqn:Hs.
  { destruct P as [P _]. injection P; intros; subst o. destruct Hnt. }
  destruct o; cbn [out_size] in *; try (exfalso; lia); try contradiction; try (exfalso; exact P);
  destruct P as (P1 & P2 & P3); injection P1; clear P1; intros; subst n;
  (split; [lia|]); (split; [exact P3|]);
  match goal with K : pending s = ?x :: _ |- _ => exists x end;
  (split; [first [left; reflexivity|right; reflexivity]|]);
  cbn [payload]; (split; [reflexivity|]); intros cap' Hc;
  destruct (end12_call E (Poll cap') s) as [r' x'] eqn:Hc';
  pose proof (poll_pops E s cap' _ x' W1 W2 Hc') as P'; rewrite Hp in P'; cbn [out_size] in P';
  (replace (_ <=? cap') with true in P' by lia); exact (proj1 P').
Qed.
Print Assumptions C19_too_small_loses_nothing.

(** With too small a buffer the peer certificate event is not answered with
    "buffer too small": the library panics.  So a caller cannot probe with an
    arbitrary buffer. *)
Theorem C19_certificate_buffer_refuted : exists E cfg auth h s,
  reach12 E cfg auth h s /\ panicked (fst (end12_call E (Poll 0) s)) /\
  fst (end12_call E (Poll 2) s) = Ok (Some (OPeerCert [48; 9])).
Proof.
  exists toy, config_default, (toy_auth 7).
  pose (x := replay toy (firstn 7 cl_calls) (new_client toy config_default (toy_auth 7) 0)).
  exists (fst x), (snd x). split; [|split; vm_compute; [exact I|reflexivity]].
  exists (new_client toy config_default (toy_auth 7) 0). split; [apply new_client_start|].
  apply replay_history. vm_compute. reflexivity.
Qed.
Print Assumptions C19_certificate_buffer_refuted.

(** A reachable state in which a datagram of 60 bytes is waiting, polled with 5 and
    with 60 bytes. *)
Example C19_case : let s := snd (replay toy [Tick 5] (new_client toy config_default (toy_auth 7) 0)) in
  exists n, fst (end12_call toy (Poll 5) s) = Ok (Some (OTooSmall n)) /\ 5 < n /\
  exists p, fst (end12_call toy (Poll n) s) = Ok (Some (OPacket p)).
Proof.
  eexists. split; [vm_compute; reflexivity|]. split; [lia|]. eexists. vm_compute. reflexivity.
Qed.

(** ** C20 *)

(** From every reachable state, polling with a large enough buffer returns
    finitely many outputs [os] and then the same [Timeout] for ever; the datagrams
    among [os] are the transmit queue, in order, each once. *)
Theorem C20_poll_drains : forall E cfg auth h s, reach12 E cfg auth h s ->
  exists os big,
    packets_of os = en_tx (end_eng s) /\
    Forall (fun o => match o with OTimeout _ | OTooSmall _ => False | _ => True end) os /\
    forall cap, big <= cap -> exists t, forall n, (length os <= n)%nat ->
      fst (polls E cap n s) =
      map (fun o => Ok (Some o)) os ++ repeat (Ok (Some (OTimeout t))) (n - length os).
Proof.
  intros E cfg auth h s HR. exists (pending s). destruct (sizes_bound (pending s)) as [big Hb]. exists big.
  split; [apply pending_packets|]. split; [apply Forall_forall, pending_no_timeout|].
  intros cap Hc. apply polls_drain; [eapply reach_poll_wf; exact HR|reflexivity|apply Hb; exact Hc].
Qed.
Print Assumptions C20_poll_drains.

(** Once [Timeout] was returned, further polls, with any buffer, return the same. *)
Theorem C20_timeout_stable : forall E cfg auth h s cap t s', reach12 E cfg auth h s ->
  end12_call E (Poll cap) s = (Ok (Some (OTimeout t)), s') ->
  forall cap', end12_call E (Poll cap') s' = (Ok (Some (OTimeout t)), s').
Proof.
  intros E cfg auth h s cap t s' HR H. pose proof (reach_poll_wf _ _ _ _ _ HR) as [W1 W2].
  pose proof (poll_pops E s cap _ s' W1 W2 H) as P.
  destruct (pending s) as [|o rest] eqn:Hp.
  { destruct P as (t' & HH & _ & P). exact P. }
  exfalso. assert (Hnt := pending_no_timeout s o). rewrite Hp in Hnt. specialize (Hnt (or_introl eq_refl)).
  destruct (out_size o <=? cap) eqn:Hs.
  { destruct P as [P _]. injection P; intros; subst o. destruct Hnt. }
  destruct o; try contradiction; destruct P as [P _]; discriminate.
Qed.
Print Assumptions C20_timeout_stable.

(** After [handle_timeout] a client has a datagram to send. *)
Example C20_case : let s := snd (replay toy [Tick 5] (new_client toy config_default (toy_auth 7) 0)) in
  length (en_tx (end_eng s)) = 1%nat /\
  exists p t, fst (polls toy 1500 3 s) =
    [Ok (Some (OPacket p)); Ok (Some (OTimeout t)); Ok (Some (OTimeout t))].
Proof. split; [vm_compute; reflexivity|]. do 2 eexists. vm_compute. reflexivity. Qed.
