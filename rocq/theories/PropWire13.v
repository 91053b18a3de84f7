(** C09, C17 and C27 for DTLS 1.3: what an endpoint puts on the wire.

    Vocabulary: [reach13 E cfg cert key h s]: the endpoint is in state [s] after the calls
    and replies [h].  [datagrams (outputs h)] are the datagrams it handed out, in order;
    [g_tx (end13_eng s)] those it still has to hand out.  [Sent13] (Nonce13.v) is a record
    with epoch, number, protecting key, content type, content and bytes, [sent_ok] says
    that the bytes are that record and [enc] concatenates the records of a datagram. *)
From Verif Require Import Prelude PreludeFacts Types Codec Codec12 Codec13 Record12 Record13 Monad MonadFacts Timer
  Env Config Aead Prf Window SeqRecon Engine12 Client12 Engine13 Client13 Server13 Toy History12 History12Facts Conn12
  History13 Conn13 Lift13 Poll12Proofs Lift12 Frag12Proofs Send13Proofs Poll13Proofs Out13 Nonce13 Timer12Proofs Wait12Proofs Timer13Proofs Wait13Proofs
  Mtu13 Wire13 Spec PropWire12.

(** ** C17: the MTU *)

(** A datagram comes out of the queue. *)
Lemma emitted13 E k s p s' : end13_call E k s = (Ok (Some (OPacket p)), s') -> In p (g_tx (end13_eng s)).
Proof.
  assert (N : forall {S} (m : M S unit) (x : S) r y, no_output m x = (r, y) -> r <> Ok (Some (OPacket p))).
  { intros S m x r y H. unfold no_output, bind in H. destruct (m x) as [[u|e|n] z]; injection H as <- _; discriminate. }
  intros H. destruct k as [q|cap|now|d|]; try (exfalso; destruct s as [c|c]; cbn [end13_call client13_call server13_call] in H;
    match type of H with (let '(_, _) := ?c in _) = _ => destruct c as [r y] eqn:Hc end; injection H as H _; exact (N _ _ _ _ _ Hc H)).
  rewrite poll13_unfold in H. destruct (end13_events s) as [|ev l].
  - pose proof (poll_shape cap (end13_now s) (end13_eng s)) as W. unfold wp in W.
    destruct (eng13_poll_output cap (end13_now s) (end13_eng s)) as [[o|e|n] e1]; try discriminate. cbn [fst snd] in W.
    destruct W as (x & v & y & b & _ & W). injection H as -> _. rewrite W. left. reflexivity.
  - exfalso. destruct ev; cbn [event_value] in H; [|discriminate..]. destruct (end13_certs s); [discriminate|].
    destruct (_ <=? cap); discriminate.
Qed.

Lemma reach_sizes13 E T cfg cert key h s : tags13 E T -> room13 (c_mtu cfg) T -> reach13 E cfg cert key h s ->
  g_cfg (end13_eng s) = cfg /\ sizes13 E T (end13_eng s).
Proof.
  intros HT HM H. destruct (eng13_from E _ cfg cert key (z_frame E T HT) h s H) as (e0 & H0 & Hc & Hs).
  assert (K : g_cfg e0 = cfg /\ sizes13 E T e0).
  { destruct H0 as [(b & n & ->)|(f & ->)]; (split; [reflexivity|]); split; constructor. }
  destruct K as [K1 K2]. split; [congruence|]. apply Hs; [rewrite K1; exact HM|exact K2].
Qed.

(** Every datagram, whatever was packed into it and retransmitted: it is at most as long
    as the MTU, or it is a single record that is not a handshake record.  [tags13 E T]:
    protection adds [T] bytes; [room13]: the MTU leaves room for one byte of a handshake
    message.  The last case of [fits13], a protected record with epoch number 0, needs
    the 16-bit epoch to wrap after 65533 key updates. *)
Theorem C17_datagrams13 : forall E T cfg cert key h s,
  tags13 E T -> room13 (c_mtu cfg) T -> reach13 E cfg cert key h s ->
  Forall (fun d => exists zs, d = enc zs /\ Forall (sent_ok E) zs /\
    (len d <= c_mtu cfg \/ (exists z, zs = [z] /\ z_type z <> CT_HS) \/
     Exists (fun z => z_epoch z = 0 /\ z_key z <> None) zs))
    (datagrams (outputs h) ++ g_tx (end13_eng s)).
Proof.
  intros E T cfg cert key h s HT HM (s0 & H0 & H). apply Forall_app. split.
  - induction H as [|h s k r s' H IH NP C]; [constructor|].
    rewrite outputs_snoc, datagrams_app. apply Forall_app. split; [exact IH|].
    destruct r as [[o|]|e|n]; try constructor. destruct o as [p|n|t| |c|m p|p|]; try constructor; [|constructor].
    destruct (reach_sizes13 E T cfg cert key h s HT HM) as [Hc [HS _]]; [exists s0; auto|].
    rewrite Hc in HS. rewrite Forall_forall in HS. apply HS. eapply emitted13. exact C.
  - destruct (reach_sizes13 E T cfg cert key h s HT HM) as [Hc [HS _]]; [exists s0; auto|]. rewrite Hc in HS. exact HS.
Qed.
Print Assumptions C17_datagrams13.

Lemma toy_tags13 : tags13 toy 16.
Proof.
  split.
  - intros cs i H. apply find_some in H. destruct H as [H _]. cbn in H. decompose [or] H; subst; try reflexivity. contradiction.
  - intros c k n a p b H. injection H as <-. rewrite len_app. unfold len at 2, toy_tag. rewrite toy_expand_length. unfold toy_taglen.
    destruct (c =? CS_PSK); lia.
Qed.
(** A connected client and server: hypotheses met, several records per datagram. *)
Example C17_case13 : tags13 toy 16 /\ room13 (c_mtu config_default) 16 /\
  reach13 toy config_default [48; 7] (toy_key 7) (fst xc_run) (snd xc_run) /\
  map len (datagrams (outputs (fst xc_run))) <> [].
Proof.
  split; [exact toy_tags13|]. split; [split; reflexivity|]. split; [exact xc_run_reach|]. vm_compute. discriminate.
Qed.

(** ** C09: fragmentation *)

(** A handshake message is cut into the pieces [cs], without gaps or overlaps; the
    records [zs] carry them in order, each with the type, length and number of the message
    and the offset of the piece ([covers], [is_fragment] in Spec.v), and each record
    fits the MTU.  [fixed13]: the bytes of headers and protection. *)
Theorem C09_fragments_cover13 : forall E mt (body : bytes) e r e',
  mt < 256 -> len body < 2^24 -> g_next_hs e < 2^16 ->
  fixed13 (mt13_epoch mt) (tag_of E e) < c_mtu (g_cfg e) ->
  create_handshake13 E mt (ret body) e = (r, e') ->
  match r with
  | Ok _ =>
    exists cs frags zs,
      concat cs = body /\ (body <> [] -> Forall (fun c => c <> []) cs) /\ cs <> [] /\
      covers mt (len body) (g_next_hs e) cs frags /\
      Forall (fun c => fixed13 (mt13_epoch mt) (tag_of E e) + len c <= c_mtu (g_cfg e)) cs /\
      Forall2 (fun f z => z_type z = CT_HS /\ z_epoch z = mt13_epoch mt /\ z_frag z = f /\ sent_ok E z) frags zs /\
      concat (g_tx e') = concat (g_tx e) ++ enc zs /\
      g_saved e' = g_saved e ++ map entry_of zs
  | Err x => x = ETxFull \/ x = ECrypto
  | Panic n => True
  end.
Proof.
  intros E mt body e r e' Ht Hl Hn Hm H.
  pose proof (create_handshake13_spec E mt body e Hm) as W. unfold wp in W. rewrite H in W. cbn [fst snd] in W.
  destruct W as (_ & _ & _ & _ & W). destruct r as [u|x|n]; [|exact W..].
  destruct W as (cs & zs & [W1 W2] & W3 & W4 & W5 & W6).
  assert (Hu : u32 (len body) = len body) by (unfold u32; apply N.mod_small; lia). rewrite Hu in *.
  exists cs, (pieces mt (len body) (g_next_hs e) 0 cs), zs.
  destruct (pieces_cover mt (len body) (g_next_hs e) Ht Hl Hn cs 0) as [P1 P2]; [rewrite W1; lia|].
  split; [exact W1|]. split; [intro X; destruct body; [contradiction|exact W2]|].
  split; [intros ->; cbn in W1; subst body; discriminate|].
  split; [split; [exact P1|exact P2]|]. split; [exact W3|]. split; [|split; [exact W5|exact W6]].
  eapply Forall2_impl; [|exact W4]. intros f z (Z1 & Z2 & Z3 & _ & _ & Z4). auto.
Qed.
Print Assumptions C09_fragments_cover13.

(** A 2000-byte message with the default MTU: two fragments. *)
Example C09_case13 : let e := eng13_new toy config_default [48; 7] (toy_key 7) true in
  fixed13 (mt13_epoch MT_ClientHello) (tag_of toy e) < c_mtu (g_cfg e) /\ g_next_hs e < 2^16 /\
  match create_handshake13 toy MT_ClientHello (ret (repeat 7 2000)) e with
  | (Ok _, e') => map (fun k => len (en13_frag k)) (g_saved e') = [1137; 887] /\ map len (g_tx e') = [1150; 900]
  | _ => False
  end.
Proof. vm_compute. repeat split. Qed.

(** ** C27: retransmission *)

(** A waiting endpoint whose retransmission deadline has passed resends its flight: of
    the saved records those not acknowledged, in order, with their types, epochs and
    contents, under the keys of their epochs and under numbers not below the next unused
    one ([again]; by C13 not used before), and possibly an acknowledgement after them; and
    the same records are saved, with the new numbers.  If a record cannot be sent, a
    prefix is resent and the call fails.
    Missing: then the flight is lost (next theorem). *)
Theorem C27_resend13_partial : forall E cfg cert key h s now f r s',
  reach13 E cfg cert key h s -> waiting13 E s -> 0 < c_hs_timeout cfg ->
  match g_connect (end13_eng s) with Armed c => now < c | _ => True end ->
  g_flight (end13_eng s) = Armed f -> f <= now -> resent13 s < c_retries cfg ->
  end13_call E (Tick now) s = (r, s') ->
  exists resent rest zs acks,
    g_saved (end13_eng s) = resent ++ rest /\
    Forall2 (again E (end13_eng s)) (filter (fun e => negb (en13_acked e)) resent) zs /\
    concat (g_tx (end13_eng s')) = concat (g_tx (end13_eng s)) ++ enc (zs ++ acks) /\
    (acks = [] \/ exists z c, acks = [z] /\ rec13 E (end13_eng s) CT_ACK 2 c z) /\
    ((rest = [] /\ renumbered resent zs (g_saved (end13_eng s'))) \/ (g_saved (end13_eng s') = [] /\ r <> Ok None)).
Proof. exact waiting_resend13. Qed.
Print Assumptions C27_resend13_partial.

(** The same for every retransmission, also those the peer's retransmission causes:
    [flight_resend] is all that resends. *)
Theorem C27_flight_resend13 : forall E e r e', flight_resend13 E e = (r, e') ->
  exists resent rest zs,
    g_saved e = resent ++ rest /\
    Forall2 (again E e) (filter (fun x => negb (en13_acked x)) resent) zs /\
    concat (g_tx e') = concat (g_tx e) ++ enc zs /\
    match r with Ok _ => rest = [] /\ renumbered resent zs (g_saved e') | _ => g_saved e' = [] end.
Proof.
  intros E e r e' H. pose proof (flight_resend13_spec E e) as W. unfold wp in W. rewrite H in W. cbn [fst snd] in W.
  destruct W as (_ & _ & d & rest & zs & W). exists d, rest, zs. exact W.
Qed.
Print Assumptions C27_flight_resend13.

(** What is saved for retransmission is what was sent: a new flight consists of the
    records of its messages. *)
Theorem C27_new_flight13 : forall E mt (body : bytes) e e',
  fixed13 (mt13_epoch mt) (tag_of E e) < c_mtu (g_cfg e) ->
  (flight_begin13 E ;;; create_handshake13 E mt (ret body)) e = (Ok tt, e') ->
  exists zs, zs <> [] /\ g_saved e' = map entry_of zs /\ Forall (sent_ok E) zs /\
    concat (g_tx e') = concat (g_tx e) ++ enc zs.
Proof.
  intros E mt body e e' Hm H. unfold bind in H. destruct (flight_begin13 E e) as [r e1] eqn:Hf.
  assert (K : r = Ok tt /\ g_saved e1 = [] /\ g_cfg e1 = g_cfg e /\ tag_of E e1 = tag_of E e /\ g_tx e1 = g_tx e).
  { unfold flight_begin13, draw13, bind, modify in Hf. injection Hf as <- <-. repeat split. }
  destruct K as (-> & K1 & K2 & K3 & K4).
  assert (Hm1 : fixed13 (mt13_epoch mt) (tag_of E e1) < c_mtu (g_cfg e1)) by (rewrite K2, K3; exact Hm).
  pose proof (create_handshake13_spec E mt body e1 Hm1) as W. unfold wp in W. rewrite H in W. cbn [fst snd] in W.
  destruct W as (_ & _ & _ & _ & cs & zs & [W1 W2] & _ & W4 & W5 & W6). exists zs. rewrite K1, K4 in *.
  split; [|split; [exact W6|split; [|exact W5]]].
  - intros ->. inversion W4 as [X|]. destruct cs; [cbn in W1; subst body; discriminate|discriminate].
  - apply Forall_forall. intros z Hz. clear - W4 Hz. induction W4; [destruct Hz|]. destruct Hz as [<- |Hz]; [apply H|auto].
Qed.
Print Assumptions C27_new_flight13.

(** The client of [C24_case13] resends its ClientHello. *)
Example C27_case13 : let s := snd (replay13 toy [Tick 5; Tick 10] xc0) in
  let s' := snd (replay13 toy [Tick 5; Tick 10; Poll 3000; Tick (10 + 1000000000)] xc0) in
  g_flight (end13_eng s) = Armed (10 + 1000000000) /\ len (g_saved (end13_eng s)) = 1 /\ len (g_saved (end13_eng s')) = 1 /\
  map (fun p => firstn 11 p) (g_tx (end13_eng s) ++ g_tx (end13_eng s')) =
    [[22; 254; 253; 0; 0; 0; 0; 0; 0; 0; 0]; [22; 254; 253; 0; 0; 0; 0; 0; 0; 0; 1]] /\
  map (skipn 11) (g_tx (end13_eng s)) = map (skipn 11) (g_tx (end13_eng s')).
Proof. vm_compute. repeat split. Qed.

(** A retransmission that fails because the send queue is full loses the flight: the
    client below sends its hello, fails to resend it, hands the first copy out, and at
    the next deadline [handle_timeout] succeeds and resends nothing, although nothing was
    received and retries are left.  (src/dtls13/engine.rs:689-737: the saved records are
    taken out before they are resent and put back only at the end.) *)
Definition cfg_one : Config := mkConfig 1150 30 1 true true 1000000000 4 40000000000 (2 ^ 23) None None None None.
Definition lost_run : Log * End13 :=
  replay13 toy [Tick 5; Tick 10; Tick (20 + 1000000000); Poll 3000] (new_client13 toy cfg_one [48; 7] (toy_key 7) 0).
Theorem C27_flight_lost13_refuted : exists h s d f now s',
  reach13 toy cfg_one [48; 7] (toy_key 7) h s /\ waiting13 toy s /\
  received h = [] /\ datagrams (outputs h) = [d] /\
  In (Tick (20 + 1000000000), Err ETxFull) h /\
  g_flight (end13_eng s) = Armed f /\ f <= now /\ resent13 s < c_retries cfg_one /\
  end13_call toy (Tick now) s = (Ok None, s') /\ g_tx (end13_eng s') = [].
Proof.
  exists (fst lost_run), (snd lost_run), (hd [] (datagrams (outputs (fst lost_run)))), (20 + 3000000000), (40 + 3000000000),
    (snd (end13_call toy (Tick (40 + 3000000000)) (snd lost_run))).
  split; [apply run13_reach; [apply new_client13_start|vm_compute; reflexivity]|].
  split; [split; [intro w; vm_compute; reflexivity|vm_compute; exact Logic.I]|].
  split; [vm_compute; reflexivity|]. split; [vm_compute; reflexivity|]. split; [vm_compute; auto|].
  split; [vm_compute; reflexivity|]. split; [vm_compute; discriminate|]. split; [vm_compute; reflexivity|].
  split; vm_compute; reflexivity.
Qed.
Print Assumptions C27_flight_lost13_refuted.
