(** What a completed DTLS 1.2 handshake must have established, stated over the
    transcript, the configuration and the provider. *)
From Coq Require Import String.
From Verif Require Import Prelude Types Codec Codec12 Env Config Prf Context12.
Close Scope string_scope.

(** A handshake message in the transcript (RFC 6347, 4.2.6): type, length, message
    number, offset 0, fragment length, body. *)
Definition tmsg (mt seq : N) (body : bytes) : bytes :=
  be 1 mt ++ be 3 (len body) ++ be 2 seq ++ be 3 0 ++ be 3 (len body) ++ body.

(** The transcript [T] starts with [before], followed by a message of type [mt]. *)
Definition has_msg (T before : bytes) (mt : N) (body : bytes) : Prop :=
  exists seq after, T = before ++ tmsg mt seq body ++ after.

(** [T] starts with [before]. *)
Definition starts_with (T before : bytes) : Prop := exists after, T = before ++ after.

(** RFC 5246, 7.4.9: the peer's Finished, whose content is the PRF of the hash of
    everything before it. *)
Definition finished_ok (E : Env) (T ms : bytes) (cs : N) (from_client : bool) : Prop :=
  exists before vd rest,
    has_msg T before MT_Finished (vd ++ rest) /\ List.length vd = 12%nat /\
    prf_tls12 E (suite12_hash cs) ms
      (str (if from_client then "client finished" else "server finished"))
      (e_hash E (suite12_hash cs) before) 12 = Some vd.

(** RFC 7627: the master secret, from the pre-master secret and the messages up to
    and including ClientKeyExchange. *)
Definition master_ok (E : Env) (T pms ms : bytes) (cs : N) : Prop :=
  exists before cke seq,
    starts_with T (before ++ tmsg MT_ClientKeyExchange seq cke) /\
    prf_tls12 E (suite12_hash cs) pms (str "extended master secret")
      (e_hash E (suite12_hash cs) (before ++ tmsg MT_ClientKeyExchange seq cke)) 48 = Some ms.

(** RFC 4279, 2: the pre-master secret of plain PSK. *)
Definition psk_premaster (psk : bytes) : bytes :=
  be 2 (len psk) ++ repeat 0 (List.length psk) ++ be 2 (len psk) ++ psk.

(** The ServerHello the client acted on. *)
Definition server_hello_ok (T : bytes) (h : ServerHello12) (es : list (N * bytes)) : Prop :=
  exists before raw rest, has_msg T before MT_ServerHello raw /\ p_sh12 raw = Some (h, rest) /\
    sh_version h = V_DTLS12 /\ sh_comp h = 0 /\ sh_exts h = Some es.

(** RFC 8422, 5.4: the server's signature, under its leaf certificate, over both
    randoms and its key exchange parameters; [pms] is the secret agreed with the
    signed key. *)
Definition server_signature_ok (E : Env) (T : bytes) (leaf cr sr : bytes) (cs : N) (pms : bytes)
  : Prop :=
  exists before raw rest curve group pub alg sig tick sk pk,
    has_msg T before MT_ServerKeyExchange raw /\
    p_ske12 KX_ECDHE raw = Some (SKE_ecdh curve group pub (Some (alg, sig)), rest) /\
    In alg sigalgs12_supported /\ suite12_sig cs = Some (sigalg_sig alg) /\
    e_verify E leaf (cr ++ sr ++ be 1 curve ++ be 2 group ++ be 1 (len pub) ++ pub) sig
      (sigalg_hash alg) (sigalg_sig alg) = true /\
    In group (provider_groups E) /\
    e_kx_start E group tick = Some (sk, pk) /\ e_kx_complete E group sk pub = Some pms.

(** The peer's certificate list. *)
Definition certificates_ok (T : bytes) (certs : list bytes) : Prop :=
  exists before raw rest, has_msg T before MT_Certificate raw /\ p_cert12 raw = Some (certs, rest).

(** The ClientHello the server acted on. *)
Definition client_hello_ok (T : bytes) (ch : ClientHello12) : Prop :=
  exists before raw rest, has_msg T before MT_ClientHello raw /\ p_ch12 raw = Some (ch, rest) /\
    ch_version ch = V_DTLS12 /\ In 0 (ch_comps ch).

(** The groups and SRTP profiles a ClientHello lists. *)
Definition lists_groups (ch : ClientHello12) (gs : list N) : Prop :=
  exists d, In (X_GROUPS, d) (ch_exts ch) /\ p_groups12 d = Some gs.
Definition lists_srtp (ch : ClientHello12) (ps : list N) : Prop :=
  exists d mki, In (X_SRTP, d) (ch_exts ch) /\ p_srtp d = Some (ps, mki).

(** RFC 6347, 4.2.1: the cookie is a MAC of the client's random under the server's
    secret. *)
Definition cookie_ok (E : Env) (secret : bytes) (ch : ClientHello12) : Prop :=
  e_hmac E H_SHA256 secret (ch_random ch) = Some (ch_cookie ch) /\ List.length (ch_cookie ch) = 32%nat.

(** RFC 5246, 7.4.8: a signature under the client's leaf certificate over all
    messages before it. *)
Definition client_signature_ok (E : Env) (T leaf : bytes) : Prop :=
  exists before raw rest alg sig,
    has_msg T before MT_CertificateVerify raw /\ p_signed12 raw = Some ((alg, sig), rest) /\
    e_verify E leaf before sig (sigalg_hash alg) (sigalg_sig alg) = true.

(** The secret agreed with the key in ClientKeyExchange, for the server's ephemeral
    key [sk]. *)
Definition client_share_ok (E : Env) (T : bytes) (group : N) (pms : bytes) : Prop :=
  exists before raw rest pub tick sk pk,
    has_msg T before MT_ClientKeyExchange raw /\ p_cke12 KX_ECDHE raw = Some (CKE_ecdh pub, rest) /\
    e_kx_start E group tick = Some (sk, pk) /\ e_kx_complete E group sk pub = Some pms.

(** The identity in ClientKeyExchange. *)
Definition client_identity_ok (T identity : bytes) : Prop :=
  exists before raw rest,
    has_msg T before MT_ClientKeyExchange raw /\ p_cke12 KX_PSK raw = Some (CKE_psk identity, rest).
