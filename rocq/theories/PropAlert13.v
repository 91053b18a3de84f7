(** C22, C23 and C51 for DTLS 1.3: alerts, the end of a connection, renegotiation.

    Vocabulary: [reach13 E cfg cert key h s]: the endpoint (client or server) is in
    state [s] after the calls and replies [h].  [was_connected13 h s]: Connected was
    reported in [h] or is waiting to be polled.  [opened13 E e p t ep n content]
    (Open13.v): the datagram [p] contains a record that opens, under the key [e]
    receives epoch [ep] with and the nonce of record number [n], to [content] with
    inner content type [t]. *)
From Coq Require Import String.
From Verif Require Import Prelude PreludeFacts Types Codec Codec12 Codec13 CodecProofs Codec12Proofs Record12Proofs Spec Record12 Record13 Spec13 Record13Proofs Monad MonadFacts Timer
  Env Config Aead Engine12 Client12 Engine13 Client13 Server13 Toy History12 History12Facts Conn12 History13 Conn13
  Frame13 Lift13 Index13 Trace13 Trace13Proofs Out13 Rx13Proofs PropRx13 Open13 Poll13Proofs Fin13 KeyUpd13 Recv13 Est13 PropTimer13 PropSeal13 PropReasm Alert13.
Close Scope string_scope.

(** ** C23 *)

(** On an established connection a fatal-alert error comes from an authentic alert
    record with that description. *)
Theorem C23_fatal_is_authentic13 : forall E cfg cert key h s p d s',
  reach13 E cfg cert key h s -> was_connected13 h s ->
  end13_call E (Packet p) s = (Err (EFatalAlert d), s') ->
  exists ep n lvl rest, opened13 E (end13_eng s) p CT_ALERT ep n (lvl :: d :: rest) /\ d <> 0 /\ d <> 90.
Proof.
  intros E cfg cert key h s p d s' HR W H. destruct (connected_up13 E cfg cert key h s HR W) as (F & P & _).
  destruct (call_fatal E p d s s' F P H) as (e' & K). exact (parse_fatal E p d _ _ P K).
Qed.
Print Assumptions C23_fatal_is_authentic13.

(** A datagram made of one unprotected alert record, whatever its version, number and
    content, acts on an established connection exactly like an empty datagram. *)
Theorem C23_plain_alert_dropped13 : forall E cfg cert key h s raw v sq content,
  reach13 E cfg cert key h s -> was_connected13 h s -> bytes_ok raw ->
  is_record12 raw CT_ALERT v 0 sq content ->
  end13_call E (Packet raw) s = end13_call E (Packet []) s.
Proof.
  intros E cfg cert key h s raw v sq content HR W B L. destruct (connected_up13 E cfg cert key h s HR W) as (F & P & _).
  apply packet_ignored; [exact F|]. eapply plain_alert_ignored; eauto.
Qed.
Print Assumptions C23_plain_alert_dropped13.

(** The endpoint [e] takes the one record [raw] for a record of type [t], epoch [ep] and
    number [n] with content [content].  [C16_roundtrip13] shows that this is so for what
    the peer protects with the same key. *)
Definition takes13 (E : Env) (e : Eng13) (raw : bytes) (t ep n : N) (content : bytes) : Prop :=
  rec_bound13 raw = BRec (length raw) /\
  exists r e', rec_parse13 E raw e = (Ok (Some r), e') /\ r_ctype r = t /\ r_epoch r = ep /\ r_seq r = n /\ r_frag r = content.
(** Number [n] of epoch [ep] does not come after the close_notify noted, if any. *)
Definition not_after_close13 (e : Eng13) (ep n : N) : Prop :=
  forall cep cn, g_cn e = Some (cep, cn) -> ep < cep \/ ep = cep /\ n <= cn.

(** A record taken for a fatal alert (any description other than close_notify and
    user_canceled, whatever the level) is an error that names it, in every state in
    which protected records are accepted, unless a close_notify before it was seen. *)
Theorem C23_fatal_alert_reported13 : forall E cfg cert key h s raw ep n lvl d rest,
  reach13 E cfg cert key h s -> was_connected13 h s ->
  takes13 E (end13_eng s) raw CT_ALERT ep n (lvl :: d :: rest) -> ep <> 0 ->
  not_after_close13 (end13_eng s) ep n -> d <> 0 -> d <> 90 ->
  exists s', end13_call E (Packet raw) s = (Err (EFatalAlert d), s').
Proof.
  intros E cfg cert key h s raw ep n lvl d rest HR W (T1 & r & e' & T2 & T3 & T4 & T5 & T6) He NA D0 D9.
  destruct (connected_up13 E cfg cert key h s HR W) as (F & P & _).
  apply packet_error13; [exact F| |discriminate]. exists e'.
  subst ep n. eapply parse_one_fatal; eauto.
Qed.
Print Assumptions C23_fatal_alert_reported13.

(** Before protected records are accepted, an unprotected fatal alert is an error that
    names it.  (A server that has not decided on the version keeps the datagrams it was
    given and refuses any when it has too many.) *)
Theorem C23_early_alert_reported13 : forall E s raw v sq lvl d rest,
  g_penc (end13_eng s) = false -> bytes_ok raw ->
  is_record12 raw CT_ALERT v 0 sq (lvl :: d :: rest) -> v = 65279 \/ v = 65277 ->
  not_after_close13 (end13_eng s) 0 sq -> d <> 0 -> d <> 90 ->
  match s with XS c => len (xs_hellos c) < MAX_RETAINED | XC _ => True end ->
  exists s', end13_call E (Packet raw) s = (Err (EFatalAlert d), s').
Proof.
  intros E s raw v sq lvl d rest P B L V NA D0 D9 Q. eapply packet_error_any; [exact Q| |discriminate].
  eapply early_fatal; eauto.
Qed.
Print Assumptions C23_early_alert_reported13.
Example C23_early_case13 : 
  let s := XS (server13_new toy2 (eng13_new toy2 config_default [48; 9] (toy_key 9) false) 0 false) in
  fst (end13_call toy2 (Packet (s_plain13 CT_ALERT 0 5 [1; 40])) s) = Err (EFatalAlert 40) /\ g_penc (end13_eng s) = false /\ g_cn (end13_eng s) = None.
Proof. cbv zeta. do 2 (split; [vm_compute; reflexivity|]). vm_compute; reflexivity. Qed.

(** ** C51 *)

(** On an established connection, a record taken for a handshake record whose first
    message is not a KeyUpdate and not older than the next expected one is an error; it
    is not queued, so it is never processed. *)
Theorem C51_renegotiation_refused13 : forall E cfg cert key h s raw ep n content f fs,
  reach13 E cfg cert key h s -> was_connected13 h s ->
  takes13 E (end13_eng s) raw CT_HS ep n content -> not_after_close13 (end13_eng s) ep n ->
  p_frags12 8 content = f :: fs -> f_type f <> MT_KeyUpdate -> g_peer_hs (end13_eng s) <= f_seq f ->
  len (g_rx (end13_eng s)) < c_max_rx (g_cfg (end13_eng s)) ->
  exists s', end13_call E (Packet raw) s = (Err ERenegotiation, s') /\ g_rx (end13_eng s') = g_rx (end13_eng s).
Proof.
  intros E cfg cert key h s raw ep n content f fs HR W (T1 & r & e' & T2 & T3 & T4 & T5 & T6) NA Hf Ht Hs Hq.
  destruct (connected_up13 E cfg cert key h s HR W) as (F & P & Rl).
  pose proof (rec_parse_keeps E _ _ _ _ T2) as (K1 & K2 & K3 & K4 & K5 & K6).
  destruct (packet_error13' E raw s ERenegotiation e') as (s' & S1 & S2); [exact F| |discriminate|exists s'; rewrite S2; auto].
  subst ep n. apply (parse_one_renegotiation E raw (end13_eng s) r e' f); auto.
  unfold first_hs. rewrite (rec_parse_hs _ _ _ _ _ T2), T3, T6, Hf. reflexivity.
Qed.
Print Assumptions C51_renegotiation_refused13.

(** The client and server of the example runs, both connected: the client protects a
    fatal alert, the server's call fails with it; the same for a new Finished message.
    An unprotected alert is ignored. *)
Definition ex_raw (ct : N) (f : bytes) : bytes := last (g_tx (snd (create_cipher13 toy ct 3 false f ex_cl))) [].
Example C23_case13 :
  existsb (fun o => match o with OConnected => true | _ => false end) (outputs (fst xs_run)) = true /\
  match fst (rec_parse13 toy2 (ex_raw CT_ALERT [2; 40]) ex_sv) with
  | Ok (Some r) => (r_ctype r, r_epoch r, r_seq r, r_frag r) = (CT_ALERT, 3, 0, [2; 40]) | _ => False end /\
  rec_bound13 (ex_raw CT_ALERT [2; 40]) = BRec (length (ex_raw CT_ALERT [2; 40])) /\ g_cn ex_sv = None /\
  fst (end13_call toy2 (Packet (ex_raw CT_ALERT [2; 40])) (snd xs_run)) = Err (EFatalAlert 40) /\
  fst (end13_call toy2 (Packet (s_plain13 CT_ALERT 0 5 [2; 40])) (snd xs_run)) = Ok None.
Proof. do 5 (split; [vm_compute; reflexivity|]). vm_compute; reflexivity. Qed.
Definition ex_finished : bytes := s_hs_header MT_Finished 1 100 0 1 ++ [0].
Example C51_case13 :
  match fst (rec_parse13 toy2 (ex_raw CT_HS ex_finished) ex_sv) with
  | Ok (Some r) => (r_ctype r, r_frag r) = (CT_HS, ex_finished) | _ => False end /\
  rec_bound13 (ex_raw CT_HS ex_finished) = BRec (length (ex_raw CT_HS ex_finished)) /\
  map f_type (p_frags12 8 ex_finished) = [MT_Finished] /\ g_peer_hs ex_sv <= 100 /\
  len (g_rx ex_sv) < c_max_rx (g_cfg ex_sv) /\
  fst (end13_call toy2 (Packet (ex_raw CT_HS ex_finished)) (snd xs_run)) = Err ERenegotiation.
Proof. do 3 (split; [vm_compute; reflexivity|]). split; [vm_compute; discriminate|]. split; vm_compute; reflexivity. Qed.
