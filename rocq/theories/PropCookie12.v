(** C40 for DTLS 1.2: nothing but HelloVerifyRequest before the cookie came back. *)
From Verif Require Import Prelude PreludeFacts Types Codec Codec12 Record12 Monad MonadFacts Timer Env
  Config Context12 Engine12 Client12 Server12 Toy History12 Conn12 Poll12Proofs Evidence12 Done12 Tx12Proofs Phase12 Cookie12.

(** A handshake record of RFC 6347 in the clear: type 22, version DTLS 1.2, epoch 0,
    sequence number [sq], with a message fragment that starts with the message type
    HelloVerifyRequest (3); and a datagram made of such records. *)
Definition hvr_record (raw : bytes) : Prop :=
  exists sq f, raw = be 1 22 ++ be 2 65277 ++ be 2 0 ++ be 6 sq ++ be 2 (len f) ++ f /\ hd 0 f = 3.
Definition only_hvr (d : bytes) : Prop := exists raws, d = concat raws /\ Forall hvr_record raws.

Lemma hvr_only d : hvr_datagram d -> only_hvr d.
Proof.
  intros (rs & -> & H). exists (map (fun x => s_rec12 CT_HS V_DTLS12 0 (fst x) (snd x)) rs). split; [reflexivity|].
  induction H as [|[sq f] rs Hf H IH]; constructor; [|exact IH]. exists sq, f. split; [|exact Hf]. reflexivity.
Qed.

(** With the cookie enabled, in every history of a server: every datagram handed out so
    far (first sendings and retransmissions) is made of HelloVerifyRequest records only,
    or the server has in its transcript a ClientHello with the cookie it computes, under
    its secret, for the random in that hello. *)
Theorem C40_nothing_before_cookie12 : forall E cfg auth h c,
  reach12 E cfg auth h (Sv c) -> c_cookie cfg = true ->
  Forall only_hvr (packets_of (outputs h)) \/
  exists ch, client_hello_ok (en_transcript (sv_eng c)) ch /\ cookie_ok E (sv_secret c) ch.
Proof.
  intros E cfg auth h c H Hc. destruct (nothing_before_cookie E cfg auth h c H Hc) as [K|[K _]]; [right; exact K|left].
  apply Forall_app in K. eapply Forall_impl; [|apply K]. exact hvr_only.
Qed.
Print Assumptions C40_nothing_before_cookie12.

(** Both cases occur: the server of the example connection after the first ClientHello
    has sent one HelloVerifyRequest; at the end it has sent its flights. *)
Definition sv_begin : Log * End12 := replay toy2 (firstn 4 sv_calls) (new_server toy2 config_default (toy_auth 9) 0).
Example C40_case12 : c_cookie config_default = true /\
  reach12 toy2 config_default (toy_auth 9) (fst sv_begin) (snd sv_begin) /\
  map (fun d => (len d, nth 13 d 0)) (packets_of (outputs (fst sv_begin))) = [(60, 3)] /\
  map (fun d => (len d, nth 13 d 0)) (packets_of (outputs (fst sv_run))) = [(60, 3); (235, 2); (75, 1)].
Proof.
  split; [reflexivity|]. split.
  { exists (new_server toy2 config_default (toy_auth 9) 0). split; [apply new_server_start|]. apply replay_history. vm_compute. reflexivity. }
  split; vm_compute; reflexivity.
Qed.
