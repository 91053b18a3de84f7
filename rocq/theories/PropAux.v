(** C05 (record-number reconstruction), C15 (nonces and additional data), C47
    (configuration), C48 (key derivation). *)
From Coq Require Import String.
From Verif Require Import Prelude PreludeFacts Types Env Config Aead Prf SeqRecon Monad AuxProofs Toy.
From Coq Require Import ZifyBool ZifyNat ZifyN.
Ltac Zify.zify_post_hook ::= Z.div_mod_to_equations.
Close Scope string_scope.

(** ** C05 *)

(** If the real number [s] is closer to the expected number [e] than half the
    truncated range, its low bits reconstruct to exactly [s]. *)
Theorem C05_reconstruction_exact : forall bits e s, (bits = 8 \/ bits = 16) ->
  (Z.abs (Z.of_N s - Z.of_N e) < 2 ^ (Z.of_N bits - 1))%Z ->
  reconstruct_sequence (s mod 2 ^ bits) e bits = s.
Proof. exact recon_exact. Qed.
Print Assumptions C05_reconstruction_exact.

(** The result carries the received bits and is a nearest such number, unless the
    nearest one would be negative (expected number below half the range). *)
Theorem C05_reconstruction_bits_partial : forall bits p e, (bits = 8 \/ bits = 16) -> p < 2 ^ bits ->
  2 ^ bits <= 2 * e ->
  reconstruct_sequence p e bits mod 2 ^ bits = p /\
  (Z.abs (Z.of_N (reconstruct_sequence p e bits) - Z.of_N e) <= 2 ^ (Z.of_N bits - 1))%Z.
Proof. exact recon_bits. Qed.
Print Assumptions C05_reconstruction_bits_partial.

(** "In all cases the result agrees with the received bits" is false near zero:
    the code clamps to 0 (the record then fails to authenticate). *)
Theorem C05_reconstruction_bits_refuted : exists bits p e,
  (bits = 8 \/ bits = 16) /\ p < 2 ^ bits /\ reconstruct_sequence p e bits mod 2 ^ bits <> p.
Proof. exists 8, 200, 0. split; [auto|]. split; [reflexivity|]. vm_compute. discriminate. Qed.
Print Assumptions C05_reconstruction_bits_refuted.

Example C05_case :
  reconstruct_sequence (65540 mod 65536) 65530 16 = 65540 /\
  reconstruct_sequence (250 mod 256) 260 8 = 250.
Proof. vm_compute. auto. Qed.

(** ** C15 *)

(** The nonce of implicit-nonce suites is the write IV xor the 64-bit record
    number (RFC 7905, RFC 8446), so it is injective in the record number. *)
Theorem C15_nonce_value : forall iv epoch seq, bytes_ok iv -> length iv = 12%nat ->
  epoch < 2^16 -> seq < 2^48 ->
  unbe (nonce_xor iv (seq64 epoch seq)) = N.lxor (unbe iv) (epoch * 2^48 + seq).
Proof.
  intros iv epoch seq H1 H2 H3 H4. destruct (seq64_value epoch seq H3 H4) as [E B].
  rewrite nonce_xor_value by assumption. rewrite E. reflexivity.
Qed.
Print Assumptions C15_nonce_value.

Theorem C15_nonce_injective : forall iv e1 s1 e2 s2, bytes_ok iv -> length iv = 12%nat ->
  e1 < 2^16 -> s1 < 2^48 -> e2 < 2^16 -> s2 < 2^48 ->
  nonce_xor iv (seq64 e1 s1) = nonce_xor iv (seq64 e2 s2) -> e1 = e2 /\ s1 = s2.
Proof.
  intros iv e1 s1 e2 s2 H1 H2 H3 H4 H5 H6 E.
  destruct (seq64_value e1 s1 H3 H4) as [E1 B1]. destruct (seq64_value e2 s2 H5 H6) as [E2 B2].
  apply nonce_xor_inj in E; auto. rewrite E1, E2 in E.
  change (2^48) with 281474976710656 in *. change (2^16) with 65536 in *. lia.
Qed.
Print Assumptions C15_nonce_injective.

(** With an explicit nonce, different explicit parts give different nonces. *)
Theorem C15_explicit_nonce_injective : forall iv x1 x2,
  nonce_concat iv x1 = nonce_concat iv x2 -> x1 = x2.
Proof. intros iv x1 x2. apply app_inv_head. Qed.
Print Assumptions C15_explicit_nonce_injective.

(** The additional data determines type, epoch, number and length. *)
Theorem C15_aad_injective : forall c1 e1 s1 l1 c2 e2 s2 l2,
  e1 < 2^16 -> e2 < 2^16 -> s1 < 2^48 -> s2 < 2^48 -> l1 < 2^16 -> l2 < 2^16 ->
  aad12 c1 e1 s1 l1 = aad12 c2 e2 s2 l2 -> (c1, e1, s1, l1) = (c2, e2, s2, l2).
Proof. exact aad12_inj. Qed.
Print Assumptions C15_aad_injective.

Example C15_case :
  nonce_xor [1;2;3;4;5;6;7;8;9;10;11;12] (seq64 1 258) = [1;2;3;4;5;7;7;8;9;10;10;14] /\
  aad12 23 1 258 16 = [0;1;0;0;0;0;1;2;23;254;253;0;16].
Proof. vm_compute. auto. Qed.

(** ** C47 *)

(** A suite the endpoint may use: supplied by the provider, known to the library,
    not filtered out, and PSK only if PSK is configured. *)
Definition usable12 (E : Env) (c : Config) (s : N) : Prop :=
  In s (map s12_id (e_suites12 E)) /\ In s [49196; 49195; 52393; 49320] /\
  (forall l, c_suites12 c = Some l -> In s l) /\
  (s = 49320 -> c_psk c <> None).
Definition usable13 (E : Env) (c : Config) (s : N) : Prop :=
  In s (map s13_id (e_suites13 E)) /\ (forall l, c_suites13 c = Some l -> In s l).
Definition usable_group (E : Env) (c : Config) (g : N) : Prop :=
  In g (e_groups E) /\ In g [29; 23; 24] /\ (forall l, c_groups c = Some l -> In g l).

Definition valid_config (E : Env) (c : Config) : Prop :=
  64 <= c_mtu c /\ 0 < c_aead_limit c /\
  ((exists s, usable12 E c s) \/ (exists s, usable13 E c s)) /\
  (c_psk c <> None -> usable12 E c 49320) /\
  ((exists s, usable12 E c s /\ s <> 49320) \/ (exists s, usable13 E c s) ->
   exists g, usable_group E c g).

Lemma allowed_by_spec : forall f x, allowed_by f x = true <-> (forall l, f = Some l -> In x l).
Proof.
  intros [l|] x; cbn; split; intros H; auto.
  - intros l' E; inversion E; subst. apply memN_In; assumption.
  - apply memN_In. apply H; reflexivity.
  - discriminate.
Qed.

Theorem C47_usable_suites12 : forall E c s, In s (cfg_suites12 E c) <-> usable12 E c s.
Proof.
  intros E c s. unfold cfg_suites12, provider_suites12, usable12.
  rewrite !filter_In, allowed_by_spec, orb_true_iff, negb_true_iff, memN_In.
  unfold suite12_is_psk, CS_PSK, has_psk. change suites12_supported with [49196; 49195; 52393; 49320].
  rewrite N.eqb_neq. split.
  - intros [[[H1 H2] H3] H4]. split; [exact H1|]. split; [exact H2|]. split; [exact H3|].
    intros -> E0. rewrite E0 in H4. destruct H4 as [H4|H4]; [discriminate|congruence].
  - intros (H1 & H2 & H3 & H4). split; [split; [split|]|]; auto.
    destruct (c_psk c) eqn:P; [auto|right; intros ->; apply H4; auto].
Qed.
Print Assumptions C47_usable_suites12.

Theorem C47_usable_suites13 : forall E c s, In s (cfg_suites13 E c) <-> usable13 E c s.
Proof.
  intros E c s. unfold cfg_suites13, usable13. rewrite filter_In, allowed_by_spec. tauto.
Qed.
Print Assumptions C47_usable_suites13.

Theorem C47_usable_groups : forall E c g, In g (cfg_groups E c) <-> usable_group E c g.
Proof.
  intros E c g. unfold cfg_groups, provider_groups, usable_group.
  rewrite !filter_In, allowed_by_spec, memN_In. unfold G_X25519, G_P256, G_P384. tauto.
Qed.
Print Assumptions C47_usable_groups.

Lemma is_nil_spec : forall A (l : list A), is_nil l = false <-> exists x, In x l.
Proof.
  intros A [|x l]; cbn; split; intros H; try discriminate; auto.
  - destruct H as [? []].
  - exists x; auto.
Qed.

(** Building succeeds exactly on valid configurations (the provider's self-test
    having passed), and returns the configuration unchanged. *)
Theorem C47_build_valid : forall E c,
  (config_build E true c = Ok c <-> valid_config E c) /\
  (~ valid_config E c -> exists tag, config_build E true c = Err (EConfig tag)).
Proof.
  intros E c. unfold config_build, valid_config. cbn [negb].
  assert (S12 : is_nil (cfg_suites12 E c) = false <-> exists s, usable12 E c s).
  { rewrite is_nil_spec. split; intros [s H]; exists s; apply C47_usable_suites12; exact H. }
  assert (S13 : is_nil (cfg_suites13 E c) = false <-> exists s, usable13 E c s).
  { rewrite is_nil_spec. split; intros [s H]; exists s; apply C47_usable_suites13; exact H. }
  assert (SG : is_nil (cfg_groups E c) = false <-> exists g, usable_group E c g).
  { rewrite is_nil_spec. split; intros [s H]; exists s; apply C47_usable_groups; exact H. }
  assert (SP : existsb suite12_is_psk (cfg_suites12 E c) = true <-> usable12 E c 49320).
  { rewrite existsb_exists. split.
    - intros (x & H1 & H2). apply N.eqb_eq in H2. subst. apply C47_usable_suites12. exact H1.
    - intros H. exists 49320. split; [apply C47_usable_suites12; exact H|reflexivity]. }
  assert (SN : existsb (fun s => negb (suite12_is_psk s)) (cfg_suites12 E c) = true <->
               exists s, usable12 E c s /\ s <> 49320).
  { rewrite existsb_exists. split.
    - intros (x & H1 & H2). apply negb_true_iff in H2. apply N.eqb_neq in H2.
      exists x. split; [apply C47_usable_suites12; exact H1|exact H2].
    - intros (s & H & Hn). exists s. split; [apply C47_usable_suites12; exact H|].
      apply negb_true_iff, N.eqb_neq; exact Hn. }
  assert (HP : has_psk c = true <-> c_psk c <> None).
  { unfold has_psk. destruct (c_psk c); split; intros; congruence. }
  destruct (N.ltb_spec (c_mtu c) 64).
  { split; [split; [discriminate|intros V; lia]|eauto]. }
  destruct (N.eqb_spec (c_aead_limit c) 0).
  { split; [split; [discriminate|intros V; lia]|eauto]. }
  destruct (is_nil (cfg_suites12 E c)) eqn:N1, (is_nil (cfg_suites13 E c)) eqn:N2; cbn [andb].
  { split; [split; [discriminate|]|eauto]. intros (_ & _ & [V|V] & _).
    - apply S12 in V; discriminate.
    - apply S13 in V; discriminate. }
  all: destruct (has_psk c && negb (existsb suite12_is_psk (cfg_suites12 E c))) eqn:P;
    [apply andb_true_iff in P as [P1 P2]; apply negb_true_iff in P2;
     split; [split; [discriminate|]|eauto];
     intros (_ & _ & _ & V & _); apply HP in P1; apply V in P1; apply SP in P1; congruence|].
  all: assert (VP : c_psk c <> None -> usable12 E c 49320)
    by (intros V; apply HP in V; rewrite V in P; cbn in P; apply negb_false_iff in P; apply SP; exact P).
  all: destruct (existsb (fun s => negb (suite12_is_psk s)) (cfg_suites12 E c)) eqn:EX,
         (is_nil (cfg_groups E c)) eqn:GN; cbn [andb negb].
  all: try (split; [split; [discriminate|]|eauto];
    intros (_ & _ & _ & _ & V);
    destruct V as [g V]; [first [left; apply SN; reflexivity | right; apply S13; reflexivity]|];
    assert (true = false) by (apply SG; eauto); discriminate).
  all: split; [split; [intros _|reflexivity]|intros NV; exfalso; apply NV].
  all: split; [lia|]; split; [lia|]; split;
    [first [left; apply S12; reflexivity | right; apply S13; reflexivity]|]; split; [exact VP|].
  all: intros V; first [apply SG; reflexivity | exfalso; destruct V as [V|V];
    [apply SN in V; discriminate | apply S13 in V; discriminate]].
Qed.
Print Assumptions C47_build_valid.

Example C47_case :
  valid_config toy config_default /\
  config_build toy true (mkConfig 63 30 10 true true 1 4 1 1 None None None None) = Err (EConfig CE_mtu).
Proof. split; [apply C47_build_valid; vm_compute; reflexivity|vm_compute; reflexivity]. Qed.

(** ** C48 *)
Theorem C48_label_injective : forall p l1 c1 n1 l2 c2 n2 i,
  hkdf_label p l1 c1 n1 = Some i -> hkdf_label p l2 c2 n2 = Some i ->
  l1 = l2 /\ c1 = c2 /\ n1 = n2.
Proof. exact hkdf_label_inj. Qed.
Print Assumptions C48_label_injective.

Theorem C48_label_limits : forall p l c n,
  hkdf_label p l c n = None <-> 255 < len p + len l \/ 255 < len c \/ 65535 < n.
Proof. exact hkdf_label_limits. Qed.
Print Assumptions C48_label_limits.

(** HKDF-Expand is the first [L] bytes of the RFC 5869 stream, for every [L] up
    to the limit; hence exactly [L] bytes, and shorter outputs are prefixes of
    longer ones. *)
Theorem C48_hkdf_expand : forall E h prk mac,
  (forall d, e_hmac E h prk d = Some (mac d)) -> (forall d, length (mac d) = hash_len h) ->
  (0 < hash_len h)%nat -> forall info L,
  hkdf_expand E h prk info L =
    (if Nat.leb L (255 * hash_len h) then Some (firstn L (hkdf_stream mac info 255)) else None) /\
  length (hkdf_stream mac info 255) = (255 * hash_len h)%nat.
Proof.
  intros E h prk mac H1 H2 H3 info L. split.
  - apply hkdf_expand_spec; assumption.
  - eapply hkdf_stream_length; eassumption.
Qed.
Print Assumptions C48_hkdf_expand.

(** The TLS 1.2 PRF is the first [L] bytes of P_hash (RFC 5246, 5). *)
Theorem C48_prf_tls12 : forall E h prk mac,
  (forall d, e_hmac E h prk d = Some (mac d)) -> (forall d, length (mac d) = hash_len h) ->
  (0 < hash_len h)%nat -> forall label seed L,
  prf_tls12 E h prk label seed L = Some (firstn L (prf_stream mac (label ++ seed) L)) /\
  length (firstn L (prf_stream mac (label ++ seed) L)) = L.
Proof.
  intros E h prk mac H1 H2 H3 label seed L. split.
  - eapply prf_tls12_spec; eassumption.
  - rewrite firstn_length. erewrite prf_stream_length by eassumption. nia.
Qed.
Print Assumptions C48_prf_tls12.

Example C48_case : exists mac,
  (forall d, e_hmac toy H_SHA256 [1; 2] d = Some (mac d)) /\
  (forall d, length (mac d) = hash_len H_SHA256) /\ (0 < hash_len H_SHA256)%nat /\
  hkdf_label (str "dtls13") (str "key") [] 16 =
    Some ([0; 16; 9] ++ str "dtls13key" ++ [0]).
Proof.
  exists (fun d => match e_hmac toy H_SHA256 [1; 2] d with Some x => x | None => [] end).
  split; [intros d; reflexivity|]. split; [|split; [vm_compute; lia|reflexivity]].
  intros d. pose proof (toy_hmac_ok H_SHA256 [1; 2] d) as H. destruct (e_hmac toy H_SHA256 [1; 2] d) eqn:E.
  - apply H.
  - cbn in E. discriminate.
Qed.
