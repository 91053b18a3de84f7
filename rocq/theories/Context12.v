(** src/dtls12/context.rs: negotiated secrets and ciphers of a DTLS 1.2
    session.  Not modelled: zeroisation, buffer pooling. *)
From Coq Require Import String.
From Verif Require Import Prelude Types Env Config Prf.
Close Scope string_scope.

(** src/dtls12/context.rs:73-84 [AuthMode] *)
Inductive AuthMode := AuthCert (cert : bytes) (key : KeyInfo) | AuthPsk.

(** src/dtls12/context.rs:17-70 [CryptoContext].  The write keys and MAC keys
    are kept only inside the ciphers; a cipher is its suite and key.  The active
    key exchange is (group, secret, public). *)
Record Crypto12 := mkCrypto12 {
  k_kx : option (N * bytes * bytes); (* key_exchange *)
  k_kx_pub : option bytes; (* key_exchange_public_key *)
  k_kx_group : option N; (* key_exchange_group *)
  k_civ : option bytes; (* client_write_iv *)
  k_siv : option bytes; (* server_write_iv *)
  k_ms : option bytes; (* master_secret *)
  k_pms : option bytes; (* pre_master_secret *)
  k_ccipher : option (N * bytes); (* client_cipher *)
  k_scipher : option (N * bytes); (* server_cipher *)
  k_auth : AuthMode;
  k_psk : option bytes;
  k_crandom : option bytes; (* client_random *)
  k_srandom : option bytes }. (* server_random *)

(** Field updates of [Crypto12] ([self.f = v] in the Rust code). *)
Definition set_k_kx (v : option (N * bytes * bytes)) (s : Crypto12) : Crypto12 :=
  mkCrypto12 v (k_kx_pub s) (k_kx_group s) (k_civ s) (k_siv s) (k_ms s) (k_pms s) (k_ccipher s) (k_scipher s) (k_auth s) (k_psk s) (k_crandom s) (k_srandom s).
Definition set_k_kx_pub (v : option bytes) (s : Crypto12) : Crypto12 :=
  mkCrypto12 (k_kx s) v (k_kx_group s) (k_civ s) (k_siv s) (k_ms s) (k_pms s) (k_ccipher s) (k_scipher s) (k_auth s) (k_psk s) (k_crandom s) (k_srandom s).
Definition set_k_kx_group (v : option N) (s : Crypto12) : Crypto12 :=
  mkCrypto12 (k_kx s) (k_kx_pub s) v (k_civ s) (k_siv s) (k_ms s) (k_pms s) (k_ccipher s) (k_scipher s) (k_auth s) (k_psk s) (k_crandom s) (k_srandom s).
Definition set_k_civ (v : option bytes) (s : Crypto12) : Crypto12 :=
  mkCrypto12 (k_kx s) (k_kx_pub s) (k_kx_group s) v (k_siv s) (k_ms s) (k_pms s) (k_ccipher s) (k_scipher s) (k_auth s) (k_psk s) (k_crandom s) (k_srandom s).
Definition set_k_siv (v : option bytes) (s : Crypto12) : Crypto12 :=
  mkCrypto12 (k_kx s) (k_kx_pub s) (k_kx_group s) (k_civ s) v (k_ms s) (k_pms s) (k_ccipher s) (k_scipher s) (k_auth s) (k_psk s) (k_crandom s) (k_srandom s).
Definition set_k_ms (v : option bytes) (s : Crypto12) : Crypto12 :=
  mkCrypto12 (k_kx s) (k_kx_pub s) (k_kx_group s) (k_civ s) (k_siv s) v (k_pms s) (k_ccipher s) (k_scipher s) (k_auth s) (k_psk s) (k_crandom s) (k_srandom s).
Definition set_k_pms (v : option bytes) (s : Crypto12) : Crypto12 :=
  mkCrypto12 (k_kx s) (k_kx_pub s) (k_kx_group s) (k_civ s) (k_siv s) (k_ms s) v (k_ccipher s) (k_scipher s) (k_auth s) (k_psk s) (k_crandom s) (k_srandom s).
Definition set_k_ccipher (v : option (N * bytes)) (s : Crypto12) : Crypto12 :=
  mkCrypto12 (k_kx s) (k_kx_pub s) (k_kx_group s) (k_civ s) (k_siv s) (k_ms s) (k_pms s) v (k_scipher s) (k_auth s) (k_psk s) (k_crandom s) (k_srandom s).
Definition set_k_scipher (v : option (N * bytes)) (s : Crypto12) : Crypto12 :=
  mkCrypto12 (k_kx s) (k_kx_pub s) (k_kx_group s) (k_civ s) (k_siv s) (k_ms s) (k_pms s) (k_ccipher s) v (k_auth s) (k_psk s) (k_crandom s) (k_srandom s).
Definition set_k_auth (v : AuthMode) (s : Crypto12) : Crypto12 :=
  mkCrypto12 (k_kx s) (k_kx_pub s) (k_kx_group s) (k_civ s) (k_siv s) (k_ms s) (k_pms s) (k_ccipher s) (k_scipher s) v (k_psk s) (k_crandom s) (k_srandom s).
Definition set_k_psk (v : option bytes) (s : Crypto12) : Crypto12 :=
  mkCrypto12 (k_kx s) (k_kx_pub s) (k_kx_group s) (k_civ s) (k_siv s) (k_ms s) (k_pms s) (k_ccipher s) (k_scipher s) (k_auth s) v (k_crandom s) (k_srandom s).
Definition set_k_crandom (v : option bytes) (s : Crypto12) : Crypto12 :=
  mkCrypto12 (k_kx s) (k_kx_pub s) (k_kx_group s) (k_civ s) (k_siv s) (k_ms s) (k_pms s) (k_ccipher s) (k_scipher s) (k_auth s) (k_psk s) v (k_srandom s).
Definition set_k_srandom (v : option bytes) (s : Crypto12) : Crypto12 :=
  mkCrypto12 (k_kx s) (k_kx_pub s) (k_kx_group s) (k_civ s) (k_siv s) (k_ms s) (k_pms s) (k_ccipher s) (k_scipher s) (k_auth s) (k_psk s) (k_crandom s) v.

(** src/dtls12/context.rs:88-109 [new] *)
Definition crypto12_new (auth : AuthMode) : Crypto12 :=
  mkCrypto12 None None None None None None None None None auth None None None.

(** src/dtls12/context.rs:116-134 [maybe_init_key_exchange] *)
Definition maybe_init_kx (k : Crypto12) : option (bytes * Crypto12) :=
  match k_kx_pub k with
  | Some pk => Some (pk, k)
  | None =>
    match k_kx k with
    | Some (g, _, pk) => Some (pk, set_k_kx_group (Some g) (set_k_kx_pub (Some pk) k))
    | None => None
    end
  end.

(** src/dtls12/context.rs:137-150 [compute_shared_secret].  The key exchange is
    taken even when completing it fails, hence the state in both cases. *)
Definition compute_shared_secret (E : Env) (peer : bytes) (k : Crypto12) : bool * Crypto12 :=
  match k_kx k with
  | None => (false, k)
  | Some (g, sk, _) =>
    match e_kx_complete E g sk peer with
    | None => (false, set_k_kx None k)
    | Some pms => (true, set_k_pms (Some pms) (set_k_kx None k))
    end
  end.

(** src/dtls12/context.rs:161-173 [compute_psk_pre_master_secret] *)
Definition compute_psk_pms (k : Crypto12) : option Crypto12 :=
  match k_psk k with
  | None => None
  | Some psk =>
    Some (set_k_pms (Some (be 2 (len psk) ++ repeat 0 (length psk) ++ be 2 (len psk) ++ psk)) k)
  end.

(** src/dtls12/context.rs:176-192 [init_ecdh_server]; [tick] is the randomness
    of the ephemeral key. *)
Definition init_ecdh_server (E : Env) (group tick : N) (k : Crypto12)
  : option bytes * Crypto12 :=
  if memN group (provider_groups E) then
    match e_kx_start E group tick with
    | None => (None, k)
    | Some (sk, pk) =>
      let k := set_k_kx (Some (group, sk, pk)) k in
      match maybe_init_kx k with
      | Some (pk', k') => (Some pk', k')
      | None => (None, k)
      end
    end
  else (None, k).

(** src/dtls12/context.rs:195-219 [process_ecdh_params] *)
Definition process_ecdh_params (E : Env) (group tick : N) (peer : bytes) (k : Crypto12)
  : bool * Crypto12 :=
  if memN group (provider_groups E) then
    match e_kx_start E group tick with
    | None => (false, k)
    | Some (sk, pk) =>
      let k := set_k_kx (Some (group, sk, pk)) k in
      match maybe_init_kx k with
      | None => (false, k)
      | Some (_, k) => compute_shared_secret E peer k
      end
    end
  else (false, k).

(** src/dtls12/context.rs:222-254 [derive_extended_master_secret] *)
Definition derive_ems (E : Env) (session_hash : bytes) (h : N) (k : Crypto12)
  : option Crypto12 :=
  'pms <-? k_pms k ;;
  'ms <-? prf_tls12 E h pms (str "extended master secret") session_hash 48 ;;
  Some (set_k_pms None (set_k_ms (Some ms) k)).

Definition slice {A} (off n : nat) (l : list A) : list A := firstn n (skipn off l).

(** src/dtls12/context.rs:257-340 [derive_keys].  The state is kept on error, as
    in the Rust code: randoms, then IVs, then ciphers are set in order. *)
Definition derive_keys (E : Env) (suite : N) (cr sr : bytes) (k : Crypto12) : bool * Crypto12 :=
  match k_ms k with
  | None => (false, k)
  | Some ms =>
    let k := set_k_srandom (Some sr) (set_k_crandom (Some cr) k) in
    match find12 E suite with
    | None => (false, k)
    | Some i =>
      let '(m, e, v) := (s12_mac i, s12_key i, s12_iv i) in
      match prf_tls12 E (suite12_hash suite) ms (str "key expansion") (sr ++ cr)
              (2 * (m + e + v)) with
      | None => (false, k)
      | Some kb =>
        let ck := slice (2 * m) e kb in
        let sk := slice (2 * m + e) e kb in
        let civ := slice (2 * m + 2 * e) v kb in
        let siv := slice (2 * m + 2 * e + v) v kb in
        let k := set_k_siv (Some siv) (set_k_civ (Some civ) k) in
        if e_mkcipher E suite ck then
          let k := set_k_ccipher (Some (suite, ck)) k in
          if e_mkcipher E suite sk then (true, set_k_scipher (Some (suite, sk)) k)
          else (false, k)
        else (false, k)
      end
    end
  end.

(** src/dtls12/context.rs:343-391: encryption and decryption with the client's
    or server's cipher. *)
Definition cipher_seal (E : Env) (c : option (N * bytes)) (nonce aad pt : bytes) : option bytes :=
  match c with Some (s, key) => e_seal E s key nonce aad pt | None => None end.
Definition cipher_open (E : Env) (c : option (N * bytes)) (nonce aad ct : bytes) : option bytes :=
  match c with Some (s, key) => e_open E s key nonce aad ct | None => None end.

(** src/dtls12/context.rs:438-474 [generate_verify_data] *)
Definition verify_data12 (E : Env) (hs_hash : bytes) (is_client : bool) (h : N) (k : Crypto12)
  : option bytes :=
  'ms <-? k_ms k ;;
  prf_tls12 E h ms (str (if is_client then "client finished" else "server finished")) hs_hash 12.

(** src/dtls12/context.rs:478-527 [extract_srtp_keying_material] *)
Definition extract_srtp12 (E : Env) (profile h : N) (k : Crypto12) : option bytes :=
  'ms <-? k_ms k ;;
  'cr <-? k_crandom k ;;
  'sr <-? k_srandom k ;;
  prf_tls12 E h ms (str "EXTRACTOR-dtls_srtp") (cr ++ sr) (srtp_len profile).

(** src/dtls12/context.rs:531-556 key accessors *)
Definition auth_sigalg (a : AuthMode) : option N :=
  match a with AuthCert _ k => Some (key_alg k) | AuthPsk => None end.
Definition auth_hash (a : AuthMode) : option N :=
  match a with AuthCert _ k => Some (key_hash k) | AuthPsk => None end.
Definition auth_hashes (a : AuthMode) : list N :=
  match a with AuthCert _ k => key_hashes k | AuthPsk => [] end.
Definition auth_cert (a : AuthMode) : option bytes :=
  match a with AuthCert c _ => Some c | AuthPsk => None end.

(** src/dtls12/context.rs:420-433 [sign_data]; [tick]: signing randomness *)
Definition sign_data (E : Env) (a : AuthMode) (data : bytes) (h tick : N) : option bytes :=
  match a with AuthCert _ k => e_sign E (key_bytes k) h data tick | AuthPsk => None end.

(** src/dtls12/context.rs:578-590 [is_cipher_suite_compatible] *)
Definition suite_compatible (a : AuthMode) (s : N) : bool :=
  match a, suite12_sig s with
  | AuthCert _ k, Some sg => sg =? key_alg k
  | AuthPsk, None => true
  | _, _ => false
  end.
