(** Shared protocol constants (src/types.rs, src/dtls12/message/mod.rs,
    src/crypto/keying.rs).  Newtype wrappers over wire integers are modelled by
    the wire integer itself. *)
From Verif Require Import Prelude.

(** src/types.rs:302-312 [ContentType] *)
Definition CT_CCS   : N := 20.
Definition CT_ALERT : N := 21.
Definition CT_HS    : N := 22.
Definition CT_APP   : N := 23.
Definition CT_ACK   : N := 26.

(** src/types.rs [ProtocolVersion] *)
Definition V_DTLS10 : N := 65279. (* 0xFEFF *)
Definition V_DTLS12 : N := 65277. (* 0xFEFD *)
Definition V_DTLS13 : N := 65276. (* 0xFEFC *)

(** src/types.rs [NamedGroup]; [supported()] *)
Definition G_P256   : N := 23.
Definition G_P384   : N := 24.
Definition G_P521   : N := 25.
Definition G_X25519 : N := 29.
Definition named_groups_supported : list N := [G_X25519; G_P256; G_P384; G_P521].

(** src/types.rs [HashAlgorithm], [output_len] *)
Definition H_SHA256 : N := 4.
Definition H_SHA384 : N := 5.
Definition H_UNKNOWN : N := 255.
Definition hash_len (h : N) : nat :=
  if h =? 1 then 16 else if h =? 2 then 20 else if h =? 3 then 28 else
  if h =? 4 then 32 else if h =? 5 then 48 else if h =? 6 then 64 else 0%nat.

(** src/types.rs [SignatureAlgorithm] *)
Definition SIG_RSA   : N := 1.
Definition SIG_ECDSA : N := 3.
Definition SIG_UNKNOWN : N := 255.

(** src/dtls12/message/mod.rs [Dtls12CipherSuite] *)
Definition CS_AES256  : N := 49196. (* 0xC02C ECDHE_ECDSA_AES256_GCM_SHA384 *)
Definition CS_AES128  : N := 49195. (* 0xC02B ECDHE_ECDSA_AES128_GCM_SHA256 *)
Definition CS_CHACHA  : N := 52393. (* 0xCCA9 ECDHE_ECDSA_CHACHA20_POLY1305_SHA256 *)
Definition CS_PSK     : N := 49320. (* 0xC0A8 PSK_AES128_CCM_8 *)
Definition suites12_supported : list N := [CS_AES256; CS_AES128; CS_CHACHA; CS_PSK].
Definition suite12_is_psk (s : N) : bool := s =? CS_PSK.
Definition suite12_has_ecc (s : N) : bool := memN s [CS_AES256; CS_AES128; CS_CHACHA].
Definition suite12_hash (s : N) : N :=
  if s =? CS_AES256 then H_SHA384
  else if memN s [CS_AES128; CS_CHACHA; CS_PSK] then H_SHA256 else H_UNKNOWN.
Definition suite12_sig (s : N) : option N :=
  if suite12_has_ecc s then Some SIG_ECDSA
  else if s =? CS_PSK then None else Some SIG_UNKNOWN.

(** [KeyExchangeAlgorithm], [as_key_exchange_algorithm] *)
Inductive kxalg := KX_ECDHE | KX_PSK | KX_UNKNOWN.
Definition suite12_kx (s : N) : kxalg :=
  if suite12_has_ecc s then KX_ECDHE else if s =? CS_PSK then KX_PSK else KX_UNKNOWN.

(** src/types.rs [Dtls13CipherSuite] *)
Definition S13_AES128 : N := 4865. (* 0x1301 *)
Definition S13_AES256 : N := 4866. (* 0x1302 *)
Definition S13_CHACHA : N := 4867. (* 0x1303 *)
Definition suites13_supported : list N := [S13_AES128; S13_AES256; S13_CHACHA].
Definition suite13_hash (s : N) : N :=
  if s =? S13_AES256 then H_SHA384
  else if memN s [S13_AES128; S13_CHACHA; 4868; 4869] then H_SHA256 else H_UNKNOWN.

(** src/dtls12/message/mod.rs:346-356 [SignatureAndHashAlgorithm::supported]
    as u16 = hash << 8 | signature *)
Definition sigalg_hash (a : N) : N := a / 256.
Definition sigalg_sig (a : N) : N := a mod 256.
Definition mk_sigalg (h s : N) : N := h * 256 + s.
Definition sigalgs12_supported : list N :=
  [mk_sigalg H_SHA256 SIG_ECDSA; mk_sigalg H_SHA384 SIG_ECDSA;
   mk_sigalg H_SHA256 SIG_RSA; mk_sigalg H_SHA384 SIG_RSA].

(** src/types.rs [SignatureScheme::SUPPORTED] *)
Definition schemes13_supported : list N := [1027; 1283]. (* 0x0403, 0x0503 *)

(** src/crypto/keying.rs, src/dtls12/message/extensions/use_srtp.rs:15-56 *)
Definition SRTP_SHA1_80 : N := 1.
Definition SRTP_GCM128  : N := 7.
Definition SRTP_GCM256  : N := 8.
Definition srtp_known : list N := [SRTP_SHA1_80; SRTP_GCM128; SRTP_GCM256].
(** src/crypto/keying.rs:47-58 [keying_material_len] *)
Definition srtp_len (p : N) : nat :=
  if p =? SRTP_SHA1_80 then 60 else if p =? SRTP_GCM128 then 56 else 88%nat.
