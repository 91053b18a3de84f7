(** The configuration and everything the code takes from outside: the crypto
    provider, the random number generator and the standard library's binary
    search.  The model is parameterised by one [Env]; every theorem quantifies
    over it, with hypotheses where a property depends on the provider being
    correct.  Nothing here is an axiom. *)
From Verif Require Import Prelude Types.

(** src/crypto/provider.rs:160-190 [SupportedDtls12CipherSuite] *)
Record Suite12Info := mkS12 {
  s12_id : N; s12_mac : nat; s12_key : nat; s12_iv : nat; s12_enl : nat; s12_tag : nat }.
(** src/crypto/provider.rs [SupportedDtls13CipherSuite] *)
Record Suite13Info := mkS13 {
  s13_id : N; s13_key : nat; s13_iv : nat; s13_tag : nat }.

(** [SigningKey]: DER bytes stand for the key. *)
Record KeyInfo := mkKey {
  key_bytes : bytes; key_alg : N; key_hash : N; key_hashes : list N }.

(** Ciphers are stateless functions of suite and key; the provider's own
    failures are [None].  [nat]/[N] ticks make every draw of randomness an
    independent oracle value. *)
Record Env := mkEnv {
  e_suites12 : list Suite12Info;                        (* CryptoProvider::cipher_suites *)
  e_suites13 : list Suite13Info;                        (* dtls13_cipher_suites *)
  e_groups : list N;                                    (* kx_groups, provider order *)
  e_mkcipher : N -> bytes -> bool;                      (* create_cipher succeeds *)
  e_seal : N -> bytes -> bytes -> bytes -> bytes -> option bytes; (* suite key nonce aad pt *)
  e_open : N -> bytes -> bytes -> bytes -> bytes -> option bytes; (* suite key nonce aad ct *)
  e_mask : N -> bytes -> bytes -> bytes;                (* encrypt_sn: suite sn_key sample *)
  e_hash : N -> bytes -> bytes;                         (* HashContext *)
  e_hmac : N -> bytes -> bytes -> option bytes;         (* HmacProvider::hmac *)
  e_kx_start : N -> N -> option (bytes * bytes);        (* group tick -> (secret, public) *)
  e_kx_complete : N -> bytes -> bytes -> option bytes;  (* group secret peer_public *)
  e_sign : bytes -> N -> bytes -> N -> option bytes;    (* key hash data tick *)
  e_verify : bytes -> bytes -> bytes -> N -> N -> bool; (* cert data sig hash sigalg *)
  e_cert_group : bytes -> option N;                     (* cert_named_group *)
  e_rand : N -> nat -> bytes;                           (* SeededRng::random / fill *)
  e_jitter : N -> Z;                                    (* rng.random::<f32>() scaled, in ns *)
  e_threshold : N -> N -> N;                            (* rng draw in [0, n) for the AEAD limit *)
  e_bsearch : N -> list comparison -> bool * nat }.     (* VecDeque::binary_search_by *)

(** What the standard library guarantees about [binary_search_by]: a hit is a hit,
    a miss gives an index in range, and on a list sorted with respect to the
    probe it is exact. *)
Definition bsearch_ok (E : Env) : Prop :=
  forall t cs,
    let '(found, i) := e_bsearch E t cs in
    (found = true -> nth_error cs i = Some Eq) /\
    (found = false -> (i <= length cs)%nat) /\
    (forall a b c, cs = repeat Lt a ++ repeat Eq b ++ repeat Gt c ->
       (found = true <-> (0 < b)%nat) /\ (found = false -> i = a)).

(** The jitter is between -0.25s and 0.25s (src/timer.rs:44-47). *)
Definition jitter_ok (E : Env) : Prop :=
  forall t, (-250000000 <= e_jitter E t <= 250000000)%Z.

Definition rand_ok (E : Env) : Prop :=
  forall t n, length (e_rand E t n) = n /\ bytes_ok (e_rand E t n).

Definition hmac_ok (E : Env) : Prop :=
  forall h k d, match e_hmac E h k d with
                | Some t => length t = hash_len h /\ bytes_ok t
                | None => True
                end.

(** Functional correctness of the AEAD: what is sealed opens to the same
    plaintext, and the ciphertext is [tag] bytes longer. *)
Definition find12 (E : Env) (s : N) : option Suite12Info :=
  find (fun i => s12_id i =? s) (e_suites12 E).
Definition find13 (E : Env) (s : N) : option Suite13Info :=
  find (fun i => s13_id i =? s) (e_suites13 E).

Definition seal_open_ok (E : Env) : Prop :=
  forall s k n a p c, e_seal E s k n a p = Some c -> e_open E s k n a c = Some p.
Definition seal12_len_ok (E : Env) : Prop :=
  forall s i k n a p c, find12 E s = Some i -> e_seal E s k n a p = Some c ->
    length c = (length p + s12_tag i)%nat.
Definition seal13_len_ok (E : Env) : Prop :=
  forall s i k n a p c, find13 E s = Some i -> e_seal E s k n a p = Some c ->
    length c = (length p + s13_tag i)%nat.
Definition seal_bytes_ok (E : Env) : Prop :=
  forall s k n a p c, bytes_ok p -> e_seal E s k n a p = Some c -> bytes_ok c.

(** The two record protection layouts the code supports: 4-byte IV with 8-byte
    explicit nonce, or 12-byte IV without (src/crypto/dtls_aead.rs:53-56). *)
Definition suites12_ok (E : Env) : Prop :=
  forall s i, find12 E s = Some i ->
    ((s12_iv i = 4 /\ s12_enl i = 8) \/ (s12_iv i = 12 /\ s12_enl i = 0))%nat.
Definition suites13_ok (E : Env) : Prop :=
  forall s i, find13 E s = Some i -> s13_iv i = 12%nat.

