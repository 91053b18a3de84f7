(** What a completed DTLS 1.3 handshake must have established, stated over the
    transcript, the configuration and the provider. *)
From Coq Require Import String.
From Verif Require Import Prelude Types Codec Codec12 Codec13 Env Config Prf Client13 Evidence12.
Close Scope string_scope.

(** A handshake message in the transcript (RFC 8446, 4.4.1; RFC 9147, 5.2): type,
    length, body. *)
Definition tmsg13 (mt : N) (body : bytes) : bytes := be 1 mt ++ be 3 (len body) ++ body.

(** The transcript [T] starts with [before], followed by a message of type [mt]. *)
Definition has13 (T before : bytes) (mt : N) (body : bytes) : Prop :=
  exists after, T = before ++ tmsg13 mt body ++ after.

(** RFC 8446, 7.1: HKDF-Expand-Label with the output as long as the hash. *)
Definition labelled (E : Env) (h : N) (secret label ctx out : bytes) : Prop :=
  hkdf_expand_label13 E h secret label ctx (hash_len h) = Some out.

(** RFC 8446, 7.1: the handshake secret [hs] and the handshake traffic secrets [c] of
    the client and [s] of the server, from the key exchange output [shared] and the
    messages [T] up to and including ServerHello; there is no PSK. *)
Definition schedule13 (E : Env) (cs : N) (shared T c s hs : bytes) : Prop :=
  let h := suite13_hash cs in
  let zeros := repeat 0 (hash_len h) in
  exists early derived,
    hkdf_extract E h zeros zeros = Some early /\
    labelled E h early (str "derived") (e_hash E h []) derived /\
    hkdf_extract E h derived shared = Some hs /\
    labelled E h hs (str "c hs traffic") (e_hash E h T) c /\
    labelled E h hs (str "s hs traffic") (e_hash E h T) s.

(** RFC 8446, 7.1: the exporter secret, from the handshake secret and the messages
    [T] up to and including the server's Finished. *)
Definition exporter13 (E : Env) (cs : N) (hs T exp : bytes) : Prop :=
  let h := suite13_hash cs in
  exists derived master,
    labelled E h hs (str "derived") (e_hash E h []) derived /\
    hkdf_extract E h derived (repeat 0 (hash_len h)) = Some master /\
    labelled E h master (str "exp master") (e_hash E h T) exp.

(** RFC 8446, 4.4.4: [vd] is the verify_data under the traffic secret [secret] after
    the messages [T]. *)
Definition verify_data13 (E : Env) (cs : N) (secret T vd : bytes) : Prop :=
  let h := suite13_hash cs in
  exists key, labelled E h secret (str "finished") [] key /\
    hkdf_extract E h key (e_hash E h T) = Some vd.

(** RFC 8446, 4.4.3: a signature of [leaf]'s key, with an offered scheme and on the
    scheme's curve, over the hash of the messages [T]. *)
Definition signed13 (E : Env) (cs : N) (context T leaf : bytes) (scheme : N) (sig : bytes) : Prop :=
  In scheme schemes13_supported /\ e_cert_group E leaf = Some (scheme_group scheme) /\
  e_verify E leaf (repeat 32 64 ++ context ++ e_hash E (suite13_hash cs) T) sig
    (scheme_hash scheme) SIG_ECDSA = true.

(** ** The client's view *)

(** The key pair [kx] (group, private and public key) was made by this client for a
    ClientHello in the transcript, which offers it, the suites of the configuration
    and the signature schemes. *)
Definition offered13 (E : Env) (cfg : Config) (T : bytes) (kx : N * bytes * bytes) : Prop :=
  exists before ch tick,
    has13 T before MT_ClientHello (s_ch13 ch) /\
    h_suites ch = firstn 3 (cfg_suites13 E cfg) /\
    In (X_KEYSHARE, s_shares_ch [(fst (fst kx), snd kx)]) (h_exts ch) /\
    In (X_SIGALGS, s_schemes13 schemes13_supported) (h_exts ch) /\
    In (fst (fst kx)) (cfg_groups E cfg) /\
    e_kx_start E (fst (fst kx)) tick = Some (snd (fst kx), snd kx).

(** The secrets come from a ServerHello in the transcript that selects DTLS 1.3, an
    allowed suite and the group of the client's key pair [kx]. *)
Definition server_hello13 (E : Env) (cfg : Config) (T : bytes) (kx : N * bytes * bytes)
  (cs : N) (c s hs : bytes) : Prop :=
  exists before raw h es peer shared,
    has13 T before MT_ServerHello raw /\ p_sh13 raw = Some (h, []) /\ is_hrr h = false /\
    sh_version h = V_DTLS12 /\ sh_comp h = 0 /\ sh_suite h = cs /\
    In cs suites13_supported /\ In cs (cfg_suites13 E cfg) /\
    sh_exts h = Some es /\
    (exists d, In (X_VERSIONS, d) es /\ p_versions_sh d = Some V_DTLS13) /\
    (exists d, In (X_KEYSHARE, d) es /\ p_share_sh d = Some (fst (fst kx), peer)) /\
    e_kx_complete E (fst (fst kx)) (snd (fst kx)) peer = Some shared /\
    schedule13 E cs shared (before ++ tmsg13 MT_ServerHello raw) c s hs.

(** After it, the server's certificate list. *)
Definition server_certs13 (E : Env) (cfg : Config) (T : bytes) (kx : N * bytes * bytes)
  (cs : N) (c s hs : bytes) (certs : list bytes) : Prop :=
  exists before raw es,
    has13 T before MT_Certificate raw /\ p_cert13 raw = Some (([], es), []) /\
    certs = map fst es /\ certs <> [] /\ server_hello13 E cfg before kx cs c s hs.

(** After it, a CertificateVerify under the first certificate. *)
Definition server_proof13 (E : Env) (cfg : Config) (T : bytes) (kx : N * bytes * bytes)
  (cs : N) (c s hs : bytes) (certs : list bytes) : Prop :=
  exists before raw scheme sig leaf,
    has13 T before MT_CertificateVerify raw /\ p_signed12 raw = Some ((scheme, sig), []) /\
    hd_error certs = Some leaf /\
    signed13 E cs (str "TLS 1.3, server CertificateVerify" ++ [0]) before leaf scheme sig /\
    server_certs13 E cfg before kx cs c s hs certs.

(** After it, the server's Finished, and the exporter secret made after that. *)
Definition server_done13 (E : Env) (cfg : Config) (T : bytes) (kx : N * bytes * bytes)
  (cs : N) (c s hs : bytes) (certs : list bytes) (exp : bytes) : Prop :=
  exists before vd,
    has13 T before MT_Finished vd /\ verify_data13 E cs s before vd /\
    exporter13 E cs hs (before ++ tmsg13 MT_Finished vd) exp /\
    server_proof13 E cfg before kx cs c s hs certs.

(** ** The server's view *)

Definition lists13 {A} (h : ClientHello13) (t : N) (parse : bytes -> option A) (x : A) : Prop :=
  exists d, In (t, d) (h_exts h) /\ parse d = Some x.

(** The ClientHello the server acted on, and what it chose from it: suite, group with
    the client's key share, SRTP profile; [shared] is the key exchange output.  With
    the cookie enabled, the hello carries the MAC of its random under the server's
    [secret]. *)
Definition client_hello13 (E : Env) (cfg : Config) (secret T : bytes) (srtp : option N)
  (cs group : N) (shared : bytes) : Prop :=
  exists before raw auto h l peer tick kx,
    has13 T before MT_ClientHello raw /\ p_ch13 auto raw = Some (h, []) /\
    h_version h = V_DTLS12 /\ In 0 (h_comps h) /\
    (exists vs, lists13 h X_VERSIONS p_versions_ch vs /\ In V_DTLS13 vs) /\
    In cs (h_suites h) /\ In cs (cfg_suites13 E cfg) /\
    In group (cfg_groups E cfg) /\ lists13 h X_KEYSHARE p_shares_ch l /\ In (group, peer) l /\
    e_kx_start E group tick = Some kx /\ e_kx_complete E group (fst kx) peer = Some shared /\
    (forall p, srtp = Some p -> exists ps mki, lists13 h X_SRTP p_srtp (ps, mki) /\ In p ps /\ In p srtp_known) /\
    (c_cookie cfg = true ->
       exists mac, lists13 h X_COOKIE p_cookie_ext mac /\ e_hmac E H_SHA256 secret (h_random h) = Some mac).

(** After it, the server's own ServerHello; the secrets come from both. *)
Definition client_secrets13 (E : Env) (cfg : Config) (secret T : bytes) (srtp : option N)
  (cs : N) (c s hs : bytes) : Prop :=
  exists before raw group shared,
    has13 T before MT_ServerHello raw /\
    client_hello13 E cfg secret before srtp cs group shared /\
    schedule13 E cs shared (before ++ tmsg13 MT_ServerHello raw) c s hs.

(** After it, the server's own Finished and the exporter secret made after that. *)
Definition client_keys13 (E : Env) (cfg : Config) (secret T : bytes) (srtp : option N)
  (cs : N) (c s hs exp : bytes) : Prop :=
  exists before vd,
    has13 T before MT_Finished vd /\ verify_data13 E cs s before vd /\
    exporter13 E cs hs (before ++ tmsg13 MT_Finished vd) exp /\
    client_secrets13 E cfg secret before srtp cs c s hs.

(** After it, the client's certificate list. *)
Definition client_certs13 (E : Env) (cfg : Config) (secret T : bytes) (srtp : option N)
  (cs : N) (c s hs exp : bytes) (certs : list bytes) : Prop :=
  exists before raw ctx es,
    has13 T before MT_Certificate raw /\ p_cert13 raw = Some ((ctx, es), []) /\
    certs = map fst es /\ certs <> [] /\ client_keys13 E cfg secret before srtp cs c s hs exp.

(** After it, a CertificateVerify under the first certificate. *)
Definition client_proof13 (E : Env) (cfg : Config) (secret T : bytes) (srtp : option N)
  (cs : N) (c s hs exp : bytes) (certs : list bytes) : Prop :=
  exists before raw scheme sig leaf,
    has13 T before MT_CertificateVerify raw /\ p_signed12 raw = Some ((scheme, sig), []) /\
    hd_error certs = Some leaf /\
    signed13 E cs (str "TLS 1.3, client CertificateVerify" ++ [0]) before leaf scheme sig /\
    client_certs13 E cfg secret before srtp cs c s hs exp certs.

(** The client's Finished; before it, either no certificate or one with proof of
    possession. *)
Definition client_done13 (E : Env) (cfg : Config) (secret T : bytes) (srtp : option N)
  (cs : N) (c s hs exp : bytes) (certs : list bytes) : Prop :=
  exists before vd,
    has13 T before MT_Finished vd /\ verify_data13 E cs c before vd /\
    (certs = [] /\ client_keys13 E cfg secret before srtp cs c s hs exp \/
     client_proof13 E cfg secret before srtp cs c s hs exp certs).

(** RFC 5764, 4.2 with the exporter of RFC 8446, 7.5. *)
Definition keying_ok13 (E : Env) (cs : N) (exp : bytes) (p : N) (km : bytes) : Prop :=
  let h := suite13_hash cs in
  exists d, labelled E h exp (str "EXTRACTOR-dtls_srtp") (e_hash E h []) d /\
    hkdf_expand_label13 E h d (str "exporter") (e_hash E h []) (srtp_len p) = Some km.
