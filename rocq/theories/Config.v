(** src/config.rs: configuration, its accessors and its validation. *)
From Verif Require Import Prelude Types Env Monad.

(** src/config.rs:23-51 [Psk]; a resolver is a function from identities to
    secrets. *)
Inductive Psk :=
| PskClient (identity : bytes) (resolve : bytes -> option bytes)
| PskServer (hint : option bytes) (resolve : bytes -> option bytes).

(** src/config.rs:63-79 [Config]; the provider and the random seed are in
    [Env].  [ConfigBuilder] (src/config.rs:293-309) has the same fields. *)
Record Config := mkConfig {
  c_mtu : N; c_max_rx : N; c_max_tx : N;
  c_req_cert : bool; c_cookie : bool;
  c_rto : N; c_retries : N; c_hs_timeout : N; c_aead_limit : N;
  c_suites12 : option (list N); c_suites13 : option (list N); c_groups : option (list N);
  c_psk : option Psk }.

(** src/config.rs:83-101 [Config::builder]; durations in nanoseconds. *)
Definition config_default : Config :=
  mkConfig 1150 30 10 true true 1000000000 4 40000000000 (2 ^ 23) None None None None.

Definition allowed_by (f : option (list N)) (x : N) : bool :=
  match f with Some l => memN x l | None => true end.

(** src/crypto/validation/mod.rs:29-37 [supported_cipher_suites] *)
Definition provider_suites12 (E : Env) : list N :=
  filter (fun s => memN s suites12_supported) (map s12_id (e_suites12 E)).
(** src/crypto/validation/mod.rs:42-51 [supported_kx_groups] *)
Definition provider_groups (E : Env) : list N :=
  filter (fun g => memN g [G_X25519; G_P256; G_P384]) (e_groups E).

(** src/config.rs:241-253 [dtls12_cipher_suites] *)
Definition has_psk (c : Config) : bool := match c_psk c with Some _ => true | None => false end.
Definition cfg_suites12 (E : Env) (c : Config) : list N :=
  filter (fun s => has_psk c || negb (suite12_is_psk s))
    (filter (allowed_by (c_suites12 c)) (provider_suites12 E)).
(** src/config.rs:260-272 [dtls13_cipher_suites] *)
Definition cfg_suites13 (E : Env) (c : Config) : list N :=
  filter (allowed_by (c_suites13 c)) (map s13_id (e_suites13 E)).
(** src/config.rs:279-287 [kx_groups] *)
Definition cfg_groups (E : Env) (c : Config) : list N :=
  filter (allowed_by (c_groups c)) (provider_groups E).

(** src/config.rs [psk_resolver], [psk_identity], [psk_identity_hint] *)
Definition cfg_resolver (c : Config) : option (bytes -> option bytes) :=
  match c_psk c with
  | Some (PskClient _ r) | Some (PskServer _ r) => Some r
  | None => None
  end.
Definition cfg_identity (c : Config) : option bytes :=
  match c_psk c with Some (PskClient i _) => Some i | _ => None end.
Definition cfg_hint (c : Config) : option bytes :=
  match c_psk c with Some (PskServer h _) => h | _ => None end.

(** Tags of [ConfigError]. *)
Definition CE_mtu : N := 1.
Definition CE_aead : N := 2.
Definition CE_no_suites : N := 3.
Definition CE_psk_suite : N := 4.
Definition CE_groups12 : N := 5.
Definition CE_groups13 : N := 6.
Definition CE_provider : N := 7.

Definition is_nil {A} (l : list A) : bool := match l with [] => true | _ => false end.

(** src/config.rs:488-606 [build].  [provider_valid] is the outcome of
    [CryptoProvider::validate] (known-answer self tests, not modelled). *)
Definition config_build (E : Env) (provider_valid : bool) (c : Config) : res Config :=
  if negb provider_valid then Err (EConfig CE_provider)
  else if c_mtu c <? 64 then Err (EConfig CE_mtu)
  else if c_aead_limit c =? 0 then Err (EConfig CE_aead)
  else if is_nil (cfg_suites12 E c) && is_nil (cfg_suites13 E c) then Err (EConfig CE_no_suites)
  else if has_psk c && negb (existsb suite12_is_psk (cfg_suites12 E c))
       then Err (EConfig CE_psk_suite)
  else if existsb (fun s => negb (suite12_is_psk s)) (cfg_suites12 E c) && is_nil (cfg_groups E c)
       then Err (EConfig CE_groups12)
  else if negb (is_nil (cfg_suites13 E c)) && is_nil (cfg_groups E c)
       then Err (EConfig CE_groups13)
  else Ok c.
