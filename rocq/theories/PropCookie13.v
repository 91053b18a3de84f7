(** C40 for DTLS 1.3: nothing but HelloRetryRequest before the cookie came back. *)
From Verif Require Import Prelude PreludeFacts Types Codec Codec12 Codec13 Record12 Record13 Monad MonadFacts Timer Env
  Config Engine12 Client12 Engine13 Client13 Server13 Toy History12 Conn12 History13 Conn13 Poll12Proofs Out13 Evidence12 Evidence13
  HsEng13 Done12 Tx12Proofs Cookie13.

(** The random that marks a ServerHello as HelloRetryRequest: the SHA-256 of
    "HelloRetryRequest", RFC 8446, 4.1.3. *)
Definition retry_random : bytes :=
  [207; 33; 173; 116; 229; 154; 97; 17; 190; 29; 140; 2; 30; 101; 184; 145;
   194; 162; 17; 22; 122; 187; 140; 94; 7; 158; 9; 226; 200; 168; 51; 156].
(** A handshake record in the clear (type 22, epoch 0, sequence number [sq]) with a
    fragment of a HelloRetryRequest: message type 2, and bytes [off], ..., [off + n - 1]
    of a body that has the special random after the version. *)
Definition hrr_record (raw : bytes) : Prop :=
  exists sq f, raw = be 1 22 ++ be 2 65277 ++ be 2 0 ++ be 6 sq ++ be 2 (len f) ++ f /\
  exists body seq off n, firstn 32 (skipn 2 body) = retry_random /\
    f = be 1 2 ++ be 3 (len body) ++ be 2 seq ++ be 3 off ++ be 3 n ++ firstn (N.to_nat n) (skipn (N.to_nat off) body).
Definition only_hrr (d : bytes) : Prop := exists raws, d = concat raws /\ Forall hrr_record raws.

Lemma hrr_only d : hrr_datagram d -> only_hrr d.
Proof.
  intros (rs & -> & H). exists (map (fun x => s_plain13 CT_HS 0 (fst x) (snd x)) rs). split; [reflexivity|].
  induction H as [|[sq f] rs Hf H IH]; constructor; [|exact IH]. exists sq, f. split; [reflexivity|].
  destruct Hf as (h & seq & off & n & Hh & Hf). exists (s_sh13 h), seq, off, n. split.
  - unfold s_sh13, s_sh12. rewrite Hh. reflexivity.
  - cbn [snd] in Hf. rewrite Hf. unfold s_hs_header. rewrite be3_u32. rewrite <- !app_assoc. reflexivity.
Qed.

(** With the cookie enabled, in every history of a server: every datagram handed out so
    far (first sendings and retransmissions) is made of records with fragments of
    HelloRetryRequest only, or the server has in its transcript a ClientHello with the
    cookie it computes, under its secret, for the random in that hello. *)
Theorem C40_nothing_before_cookie13 : forall E cfg cert key h c,
  reach13 E cfg cert key h (XS c) -> c_cookie cfg = true ->
  Forall only_hrr (datagrams (outputs h)) \/
  exists before raw auto hello mac, has13 (g_transcript (xs_eng c)) before MT_ClientHello raw /\
    p_ch13 auto raw = Some (hello, []) /\ lists13 hello X_COOKIE p_cookie_ext mac /\
    e_hmac E H_SHA256 (xs_secret c) (h_random hello) = Some mac.
Proof.
  intros E cfg cert key h c H Hc. destruct (nothing_before_cookie13 E cfg cert key h c H Hc) as [K|K]; [right; exact K|left].
  apply Forall_app in K. eapply Forall_impl; [|apply K]. exact hrr_only.
Qed.
Print Assumptions C40_nothing_before_cookie13.

(** Both cases occur: the server of the example connection after the first ClientHello
    has sent one HelloRetryRequest; at the end it has sent its flight. *)
Definition xs_begin : Log * End13 := replay13 toy2 (firstn 4 xs_calls) (new_server13 toy2 config_default [48; 9] (toy_key 9) 0).
Example C40_cases13 : c_cookie config_default = true /\
  reach13 toy2 config_default [48; 9] (toy_key 9) (fst xs_begin) (snd xs_begin) /\
  map (fun d => (len d, nth 13 d 0, firstn 4 (skipn 27 d))) (datagrams (outputs (fst xs_begin))) = [(109, 2, [207; 33; 173; 116])] /\
  map (fun d => (len d, nth 13 d 0, firstn 4 (skipn 27 d))) (datagrams (outputs (fst xs_run))) =
    [(109, 2, [207; 33; 173; 116]); (342, 2, [111; 147; 121; 242]); (72, 0, [0; 0; 0; 2])].
Proof.
  split; [reflexivity|]. split.
  { exists (new_server13 toy2 config_default [48; 9] (toy_key 9) 0). split; [apply new_server13_start|]. apply replay13_history. vm_compute. reflexivity. }
  split; vm_compute; reflexivity.
Qed.
