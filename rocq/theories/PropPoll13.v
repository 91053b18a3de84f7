(** C18 (queue limits), C19 (too small buffers) and C20 (polling), for DTLS 1.3. *)
From Verif Require Import Prelude Types Env Config Codec12 Record12 Record13 Monad MonadFacts Timer Engine12
  Send12Proofs Queue12Proofs Client12 Engine13 Client13 Server13 Frame13 Toy History12 Poll12Proofs History13 Lift13 Send13Proofs
  Rx13Proofs Poll13Proofs Conn12 Conn13.

(** ** C18 *)

(** In every state reachable by API calls the receive queue holds at most
    [max_queue_rx] datagrams and the transmit queue at most [max_queue_tx]. *)
Theorem C18_queues_bounded13 : forall E cfg cert key h s, reach13 E cfg cert key h s ->
  len (g_rx (end13_eng s)) <= c_max_rx cfg /\ len (g_tx (end13_eng s)) <= c_max_tx cfg.
Proof. exact queues_bounded13. Qed.
Print Assumptions C18_queues_bounded13.

(** The endpoint is connected and not closed. *)
Definition open13 (s : End13) : Prop :=
  match s with
  | XC c => xc_state c = CT_AwaitApplicationData
  | XS s => xs_state s = ST_AwaitApplicationData
  end.

(** Overflow of the transmit queue is reported: a write either succeeds and adds
    its record at the end of the queue, or returns an error (or a panic) and leaves
    the queue as it was. *)
Theorem C18_send_all_or_error13 : forall E cfg cert key h s d r s', reach13 E cfg cert key h s -> open13 s ->
  end13_call E (Send d) s = (r, s') ->
  match r with
  | Ok _ => exists rec, rec <> [] /\
      concat (g_tx (end13_eng s')) = concat (g_tx (end13_eng s)) ++ rec
  | _ => g_tx (end13_eng s') = g_tx (end13_eng s)
  end.
Proof.
  intros E cfg cert key h s d r s' _ Ho H.
  assert (G : forall e ep, wp (create_cipher13 E CT_APP ep false d) (fun r e' =>
    match r with
    | Ok _ => exists rec, rec <> [] /\ concat (g_tx e') = concat (g_tx e) ++ rec
    | _ => g_tx e' = g_tx e
    end) e).
  { intros e ep. wpuse create_cipher_spec. cbv zeta. intros x e' Hx.
    destruct x as [u|x|n]; [|destruct Hx as (_ & ->); reflexivity|destruct Hx as [-> | ->]; reflexivity].
    destruct Hx as (cs & i & k & body & rec & _ & _ & _ & [_ Hrec] & _ & _ & _ & ->). exists rec. split.
    { subst rec. unfold s_rec13. destruct (ep =? 0); discriminate. }
    assert (Kt : g_tx (bump_seq (ctx13 e ep) ep (keep13 false (mkEntry13 CT_APP ep (ctx_seq e (ctx13 e ep)) d false) e)) = g_tx e).
    { unfold bump_seq, keep13. destruct (ctx13 e ep); cbv zeta; auto;
        destruct (3 <=? ep); auto; destruct (_ <=? _); auto. }
    unfold emit13. destruct (can_append13 e _) eqn:Hca; cbn [g_tx set_g_tx set_g_sealed]; rewrite Kt.
    - apply concat_append_last. eapply can_append13_nonnil. exact Hca.
    - rewrite concat_app. cbn. rewrite app_nil_r. reflexivity. }
  destruct s as [c|c]; cbn [open13 end13_call client13_call server13_call] in *;
    unfold no_output, client13_send, server13_send, bind, get, xeng, yeng, zoom, ret in H; rewrite Ho in H.
  - specialize (G (xc_eng c) (g_epoch (xc_eng c))). unfold wp in G.
    destruct (create_cipher13 E CT_APP (g_epoch (xc_eng c)) false d (xc_eng c)) as [x e'].
    cbn [fst snd] in G. destruct x; injection H; clear H; intros; subst; exact G.
  - specialize (G (xs_eng c) (g_epoch (xs_eng c))). unfold wp in G.
    destruct (create_cipher13 E CT_APP (g_epoch (xs_eng c)) false d (xs_eng c)) as [x e'].
    cbn [fst snd] in G. destruct x; injection H; clear H; intros; subst; exact G.
Qed.
Print Assumptions C18_send_all_or_error13.

(** A full receive queue is reported: a datagram with acceptable records is
    refused with [ReceiveQueueFull] and the queue is not touched. *)
Theorem C18_receive_overflow13 : forall E cfg cert key h s p rs e' r s', reach13 E cfg cert key h s ->
  match s with XS x => xs_auto x = false | XC _ => True end ->
  len (g_rx (end13_eng s)) = c_max_rx (g_cfg (end13_eng s)) ->
  records_parse13 E p (end13_eng s) = (Ok rs, e') -> rs <> [] ->
  end13_call E (Packet p) s = (r, s') -> r = Err ERxFull /\ g_rx (end13_eng s') = g_rx (end13_eng s).
Proof.
  intros E cfg cert key h s p rs e' r s' _ Hauto Hf Hp Hn H.
  assert (Hk : g_rx (end13_eng s) = g_rx e' /\ g_cfg (end13_eng s) = g_cfg e').
  { assert (PO : preorder (fun a b : Eng13 => g_rx a = g_rx b /\ g_cfg a = g_cfg b))
      by (split; [intros x; auto|intros x y z [] []; split; congruence]).
    assert (HH : pres (fun a b : Eng13 => g_rx a = g_rx b /\ g_cfg a = g_cfg b) (records_parse13 E p))
      by (fr13 ltac:(first [exact PO|intros; split; reflexivity])).
    specialize (HH (end13_eng s)). rewrite Hp in HH. exact HH. }
  destruct Hk as [Hrx Hcfg].
  assert (G : eng13_parse_packet E p (end13_eng s) = (Err ERxFull, e')).
  { unfold eng13_parse_packet, bind. rewrite Hp. destruct rs as [|r0 rs]; [congruence|].
    unfold insert_incoming13, bind, get. rewrite <- Hrx, <- Hcfg. replace (_ <=? _) with true by lia. reflexivity. }
  destruct s as [c|c]; cbn [end13_call client13_call server13_call end13_eng] in *;
    unfold no_output, client13_handle_packet, server13_handle_packet, y_process, bind, public, xeng, yeng, zoom, get in H.
  - rewrite G in H; injection H; clear H; intros; subst; split; try reflexivity; symmetry; exact Hrx.
  - rewrite Hauto in H; cbn [andb] in H; rewrite G in H; injection H; clear H; intros; subst; split; try reflexivity; symmetry; exact Hrx.
Qed.
Print Assumptions C18_receive_overflow13.

(** A connected pair of endpoints, with nothing queued. *)
Example C18_case13 : open13 (snd xc_run) /\ open13 (snd xs_run) /\
  reach13 toy config_default [48; 7] (toy_key 7) (fst xc_run) (snd xc_run) /\
  fst (end13_call toy (Send [1; 2; 3]) (snd xc_run)) = Ok None.
Proof.
  split; [vm_compute; reflexivity|]. split; [vm_compute; reflexivity|].
  split; [exact xc_run_reach|vm_compute; reflexivity].
Qed.

(** ** C19 *)

(** The bytes of an output that carries bytes. *)
Definition payload13 (o : Output) : bytes :=
  match o with OPacket p => p | OAppData d => d | _ => [] end.

(** A reply "buffer too small, [n] bytes needed" means that the buffer is smaller
    than [n], a buffer of [n] bytes suffices, and the call has no effect: any later
    poll, with any buffer, returns what it would have returned without it. *)
Theorem C19_too_small_loses_nothing13 : forall E cfg cert key h s cap n s', reach13 E cfg cert key h s ->
  end13_call E (Poll cap) s = (Ok (Some (OTooSmall n)), s') ->
  cap < n /\
  (forall cap', end13_call E (Poll cap') s' = end13_call E (Poll cap') s) /\
  (exists o, (o = OPacket (payload13 o) \/ o = OAppData (payload13 o)) /\ len (payload13 o) = n /\
     forall cap', n <= cap' -> fst (end13_call E (Poll cap') s) = Ok (Some o)).
Proof.
  intros E cfg cert key h s cap n s' HR H. pose proof (reach13_poll_wf _ _ _ _ _ _ HR) as [W1 W2].
  pose proof (poll13_pops E s cap _ s' W1 W2 H) as P.
  destruct (pending13 s) as [|o rest] eqn:Hp.
  { destruct P as (t & HH & _). discriminate. }
  assert (Hnt := pending13_no_timeout s o). rewrite Hp in Hnt. specialize (Hnt (or_introl eq_refl)).
  destruct (out_size o <=? cap) eqn:Hs.
  { destruct P as [P _]. injection P; intros; subst o. destruct Hnt. }
  destruct o; cbn [out_size] in *; try (exfalso; lia); try contradiction; try (exfalso; exact P);
  destruct P as (P1 & P2 & P3); injection P1; clear P1; intros; subst n;
  (split; [lia|]); (split; [exact P3|]);
  match goal with K : pending13 s = ?x :: _ |- _ => exists x end;
  (split; [first [left; reflexivity|right; reflexivity]|]);
  cbn [payload13]; (split; [reflexivity|]); intros cap' Hc;
  destruct (end13_call E (Poll cap') s) as [r' x'] eqn:Hc';
  pose proof (poll13_pops E s cap' _ x' W1 W2 Hc') as P'; rewrite Hp in P'; cbn [out_size] in P';
  (replace (_ <=? cap') with true in P' by lia); exact (proj1 P').
Qed.
Print Assumptions C19_too_small_loses_nothing13.

(** With too small a buffer the peer certificate event is not answered with
    "buffer too small": the library panics. *)
Theorem C19_certificate_buffer13_refuted : exists E cfg cert key h s,
  reach13 E cfg cert key h s /\ panicked (fst (end13_call E (Poll 0) s)) /\
  fst (end13_call E (Poll 2) s) = Ok (Some (OPeerCert [48; 9])).
Proof.
  exists toy, config_default, [48; 7], (toy_key 7).
  pose (x := replay13 toy (firstn 7 xc_calls) xc0).
  exists (fst x), (snd x). split; [|split; vm_compute; [exact I|reflexivity]].
  apply run13_reach; [apply new_client13_start|vm_compute; reflexivity].
Qed.
Print Assumptions C19_certificate_buffer13_refuted.

(** A reachable state in which a datagram is waiting, polled with 5 bytes and with
    enough. *)
Example C19_case13 : let s := snd (replay13 toy [Tick 5] xc0) in
  exists n, fst (end13_call toy (Poll 5) s) = Ok (Some (OTooSmall n)) /\ 5 < n /\
  exists p, fst (end13_call toy (Poll n) s) = Ok (Some (OPacket p)).
Proof.
  eexists. split; [vm_compute; reflexivity|]. split; [lia|]. eexists. vm_compute. reflexivity.
Qed.

(** ** C20 *)

(** From every reachable state, polling with a large enough buffer returns
    finitely many outputs [os] and then the same [Timeout] for ever; the datagrams
    among [os] are the transmit queue, in order, each once. *)
Theorem C20_poll_drains13 : forall E cfg cert key h s, reach13 E cfg cert key h s ->
  exists os big,
    packets_of os = g_tx (end13_eng s) /\
    Forall (fun o => match o with OTimeout _ | OTooSmall _ => False | _ => True end) os /\
    forall cap, big <= cap -> exists t, forall n, (length os <= n)%nat ->
      fst (polls13 E cap n s) =
      map (fun o => Ok (Some o)) os ++ repeat (Ok (Some (OTimeout t))) (n - length os).
Proof.
  intros E cfg cert key h s HR. exists (pending13 s). destruct (sizes_bound (pending13 s)) as [big Hb]. exists big.
  split; [apply pending13_packets|]. split; [apply Forall_forall, pending13_no_timeout|].
  intros cap Hc. apply polls13_drain; [eapply reach13_poll_wf; exact HR|reflexivity|apply Hb; exact Hc].
Qed.
Print Assumptions C20_poll_drains13.

(** Once [Timeout] was returned, further polls, with any buffer, return the same. *)
Theorem C20_timeout_stable13 : forall E cfg cert key h s cap t s', reach13 E cfg cert key h s ->
  end13_call E (Poll cap) s = (Ok (Some (OTimeout t)), s') ->
  forall cap', end13_call E (Poll cap') s' = (Ok (Some (OTimeout t)), s').
Proof.
  intros E cfg cert key h s cap t s' HR H. pose proof (reach13_poll_wf _ _ _ _ _ _ HR) as [W1 W2].
  pose proof (poll13_pops E s cap _ s' W1 W2 H) as P.
  destruct (pending13 s) as [|o rest] eqn:Hp.
  { destruct P as (t' & HH & _ & P). exact P. }
  exfalso. assert (Hnt := pending13_no_timeout s o). rewrite Hp in Hnt. specialize (Hnt (or_introl eq_refl)).
  destruct (out_size o <=? cap) eqn:Hs.
  { destruct P as [P _]. injection P; intros; subst o. destruct Hnt. }
  destruct o; try contradiction; destruct P as [P _]; discriminate.
Qed.
Print Assumptions C20_timeout_stable13.

(** After [handle_timeout] a client has a datagram to send. *)
Example C20_case13 : let s := snd (replay13 toy [Tick 5] xc0) in
  length (g_tx (end13_eng s)) = 1%nat /\
  exists p t, fst (polls13 toy 1500 3 s) =
    [Ok (Some (OPacket p)); Ok (Some (OTimeout t)); Ok (Some (OTimeout t))].
Proof. split; [vm_compute; reflexivity|]. do 2 eexists. vm_compute. reflexivity. Qed.
