(** Proofs about nonces and additional data, key derivation, record-number
    reconstruction and configuration validation. *)
From Coq Require Import String.
From Verif Require Import Prelude PreludeFacts Types Env Config Aead Prf SeqRecon Monad.
From Coq Require Import ZifyBool ZifyNat ZifyN.
Ltac Zify.zify_post_hook ::= Z.div_mod_to_equations.
Close Scope string_scope.

(** ** Record-number reconstruction *)
Lemma recon_exact : forall bits e s, (bits = 8 \/ bits = 16) ->
  (Z.abs (Z.of_N s - Z.of_N e) < 2 ^ (Z.of_N bits - 1))%Z ->
  reconstruct_sequence (s mod 2 ^ bits) e bits = s.
Proof.
  intros bits e s [-> | ->] H; unfold reconstruct_sequence; cbn zeta.
  - change (2 ^ (Z.of_N 8 - 1))%Z with 128%Z in H. change (2 ^ 8) with 256.
    change (256 / 2) with 128. change (Z.of_N 128) with 128%Z. change (Z.of_N 256) with 256%Z.
    rewrite N.mod_mod by discriminate.
    destruct (Z.ltb_spec 128 (Z.of_N (s mod 256) - Z.of_N (e mod 256))); [lia|].
    destruct (Z.ltb_spec (Z.of_N (s mod 256) - Z.of_N (e mod 256)) (-(128))); lia.
  - change (2 ^ (Z.of_N 16 - 1))%Z with 32768%Z in H. change (2 ^ 16) with 65536.
    change (65536 / 2) with 32768. change (Z.of_N 32768) with 32768%Z. change (Z.of_N 65536) with 65536%Z.
    rewrite N.mod_mod by discriminate.
    destruct (Z.ltb_spec 32768 (Z.of_N (s mod 65536) - Z.of_N (e mod 65536))); [lia|].
    destruct (Z.ltb_spec (Z.of_N (s mod 65536) - Z.of_N (e mod 65536)) (-(32768))); lia.
Qed.

Lemma recon_bits : forall bits p e, (bits = 8 \/ bits = 16) -> p < 2 ^ bits ->
  2 ^ bits <= 2 * e ->
  reconstruct_sequence p e bits mod 2 ^ bits = p /\
  (Z.abs (Z.of_N (reconstruct_sequence p e bits) - Z.of_N e) <= 2 ^ (Z.of_N bits - 1))%Z.
Proof.
  intros bits p e [-> | ->] H H2; unfold reconstruct_sequence; cbn zeta.
  - change (2 ^ (Z.of_N 8 - 1))%Z with 128%Z. change (2 ^ 8) with 256 in *.
    change (256 / 2) with 128. change (Z.of_N 128) with 128%Z. change (Z.of_N 256) with 256%Z.
    rewrite (N.mod_small p) by assumption.
    destruct (Z.ltb_spec 128 (Z.of_N p - Z.of_N (e mod 256))); [lia|].
    destruct (Z.ltb_spec (Z.of_N p - Z.of_N (e mod 256)) (-(128))); lia.
  - change (2 ^ (Z.of_N 16 - 1))%Z with 32768%Z. change (2 ^ 16) with 65536 in *.
    change (65536 / 2) with 32768. change (Z.of_N 32768) with 32768%Z. change (Z.of_N 65536) with 65536%Z.
    rewrite (N.mod_small p) by assumption.
    destruct (Z.ltb_spec 32768 (Z.of_N p - Z.of_N (e mod 65536))); [lia|].
    destruct (Z.ltb_spec (Z.of_N p - Z.of_N (e mod 65536)) (-(32768))); lia.
Qed.

(** ** Nonces *)
Lemma unbe_app : forall a b, unbe (a ++ b) = unbe a * 256 ^ N.of_nat (length b) + unbe b.
Proof.
  intros a b. revert a. induction b as [|x b IH] using rev_ind; intros a.
  - rewrite app_nil_r. cbn. lia.
  - rewrite app_assoc, !unbe_app1, IH, app_length. cbn [length].
    replace (length b + 1)%nat with (S (length b)) by lia. rewrite pow256_S. lia.
Qed.

Lemma testbit_split : forall a x i, x < 256 ->
  N.testbit (a * 256 + x) i = if i <? 8 then N.testbit x i else N.testbit a (i - 8).
Proof.
  intros a x i Hx. destruct (N.ltb_spec i 8) as [Hi|Hi].
  - rewrite <- (N.mod_pow2_bits_low (a * 256 + x) 8 i Hi). change (2 ^ 8) with 256.
    f_equal. lia.
  - replace i with ((i - 8) + 8) at 1 by lia. rewrite <- N.div_pow2_bits. change (2 ^ 8) with 256.
    f_equal. lia.
Qed.

Lemma lxor_byte : forall x y, x < 256 -> y < 256 -> N.lxor x y < 256.
Proof.
  intros x y Hx Hy. destruct (N.eq_dec (N.lxor x y) 0) as [->|Hn]; [lia|].
  change 256 with (2 ^ 8). apply N.log2_lt_pow2; [lia|].
  eapply N.le_lt_trans; [apply N.log2_lxor|].
  destruct (N.eq_dec x 0) as [->|Hx0]; destruct (N.eq_dec y 0) as [->|Hy0]; try (cbn; lia);
    apply N.max_lub_lt; try (cbn; lia); apply N.log2_lt_pow2; cbn; lia.
Qed.

Lemma lxor_split : forall a b x y, x < 256 -> y < 256 ->
  N.lxor (a * 256 + x) (b * 256 + y) = N.lxor a b * 256 + N.lxor x y.
Proof.
  intros a b x y Hx Hy. apply N.bits_inj. intros i. rewrite N.lxor_spec, !testbit_split by auto using lxor_byte.
  destruct (i <? 8); rewrite N.lxor_spec; reflexivity.
Qed.

Lemma unbe_xor : forall a b, bytes_ok a -> bytes_ok b -> length a = length b ->
  unbe (map (fun '(x, y) => N.lxor x y) (combine a b)) = N.lxor (unbe a) (unbe b).
Proof.
  induction a as [|x a IH] using rev_ind; intros b Ha Hb HL.
  - destruct b; [reflexivity|discriminate].
  - destruct b as [|y b] using rev_ind; [rewrite app_length in HL; cbn in HL; lia|]. clear IHb.
    rewrite !app_length in HL. cbn in HL.
    apply bytes_ok_app in Ha as [Ha Hx]. apply bytes_ok_app in Hb as [Hb Hy].
    inversion Hx; inversion Hy; subst.
    assert (E : combine (a ++ [x]) (b ++ [y]) = combine a b ++ [(x, y)]).
    { assert (length a = length b) as HL' by lia. clear -HL'. revert b HL'.
      induction a; intros [|z b] H; cbn in *; try discriminate; auto. rewrite IHa by lia. reflexivity. }
    rewrite E, map_app. cbn [map]. rewrite !unbe_app1, IH, lxor_split by (auto; lia). reflexivity.
Qed.

(** The nonce, read as a 96-bit number, is the IV xor the 64-bit record number. *)
Lemma nonce_xor_value : forall iv seq, bytes_ok iv -> length iv = 12%nat -> seq < 2 ^ 64 ->
  unbe (nonce_xor iv seq) = N.lxor (unbe iv) seq.
Proof.
  intros iv seq Hok HL Hs. unfold nonce_xor.
  rewrite unbe_app, map_length, combine_length, be_length, skipn_length, HL.
  change (Nat.min (12 - 4) 8) with 8%nat.
  rewrite unbe_xor; auto using bytes_ok_skipn, be_ok.
  2: { rewrite skipn_length, be_length, HL. reflexivity. }
  rewrite unbe_be_small by exact Hs.
  rewrite <- (firstn_skipn 4 iv) at 3. rewrite unbe_app, skipn_length, HL.
  change (256 ^ N.of_nat (12 - 4)) with (2 ^ 64). change (256 ^ N.of_nat 8) with (2 ^ 64).
  assert (Hlo : unbe (skipn 4 iv) < 2 ^ 64).
  { pose proof (unbe_bound (skipn 4 iv) (bytes_ok_skipn 4 iv Hok)) as B.
    rewrite skipn_length, HL in B. exact B. }
  generalize dependent (unbe (firstn 4 iv)); intros hi. revert Hlo.
  generalize (unbe (skipn 4 iv)); intros lo Hlo.
  assert (TB : forall a x i, x < 2 ^ 64 -> N.testbit (a * 2 ^ 64 + x) i =
                 if i <? 64 then N.testbit x i else N.testbit a (i - 64)).
  { intros a x i Hx. destruct (N.ltb_spec i 64) as [Hi|Hi].
    - rewrite <- (N.mod_pow2_bits_low (a * 2 ^ 64 + x) 64 i Hi). f_equal.
      rewrite N.add_comm, N.mod_add by discriminate. apply N.mod_small; assumption.
    - replace i with ((i - 64) + 64) at 1 by lia. rewrite <- N.div_pow2_bits. f_equal.
      rewrite N.add_comm, N.div_add by discriminate. rewrite N.div_small by assumption. reflexivity. }
  assert (HX : N.lxor lo seq < 2 ^ 64).
  { destruct (N.eq_dec (N.lxor lo seq) 0) as [->|Hn]; [cbn; lia|].
    apply N.log2_lt_pow2; [lia|]. eapply N.le_lt_trans; [apply N.log2_lxor|].
    destruct (N.eq_dec lo 0) as [->|Hx0]; destruct (N.eq_dec seq 0) as [->|Hy0]; try (cbn; lia);
    apply N.max_lub_lt; try (cbn; lia); apply N.log2_lt_pow2; lia. }
  apply N.bits_inj. intros i. rewrite N.lxor_spec, !TB by assumption.
  destruct (N.ltb_spec i 64) as [Hi|Hi]; [apply N.lxor_spec|].
  assert (N.testbit seq i = false) as ->; [|rewrite xorb_false_r; reflexivity].
  destruct (N.eq_dec seq 0) as [->|Hs0]; [apply N.bits_0|].
  apply N.bits_above_log2. apply N.log2_lt_pow2 in Hs; lia.
Qed.

Lemma lxor_cancel : forall a b c, N.lxor a b = N.lxor a c -> b = c.
Proof.
  intros a b c E. apply (f_equal (N.lxor a)) in E.
  rewrite <- !N.lxor_assoc, !N.lxor_nilpotent, !N.lxor_0_l in E. exact E.
Qed.

Lemma nonce_xor_inj : forall iv s1 s2, bytes_ok iv -> length iv = 12%nat ->
  s1 < 2 ^ 64 -> s2 < 2 ^ 64 -> nonce_xor iv s1 = nonce_xor iv s2 -> s1 = s2.
Proof.
  intros iv s1 s2 H1 H2 H3 H4 E. apply (f_equal unbe) in E.
  rewrite !nonce_xor_value in E by assumption. eapply lxor_cancel; eauto.
Qed.

Lemma seq64_value : forall ep sq, ep < 2 ^ 16 -> sq < 2 ^ 48 ->
  seq64 ep sq = ep * 2 ^ 48 + sq /\ seq64 ep sq < 2 ^ 64.
Proof.
  intros ep sq H1 H2. unfold seq64, u64.
  assert (E : N.lor (N.shiftl ep 48) sq = ep * 2 ^ 48 + sq).
  { rewrite N.shiftl_mul_pow2. apply N.bits_inj. intros i. rewrite N.lor_spec.
    assert (D : N.testbit (ep * 2 ^ 48 + sq) i = if i <? 48 then N.testbit sq i else N.testbit ep (i - 48)).
    { destruct (N.ltb_spec i 48) as [Hi|Hi].
      - rewrite <- (N.mod_pow2_bits_low (ep * 2 ^ 48 + sq) 48 i Hi). f_equal.
        rewrite N.add_comm, N.mod_add by discriminate. apply N.mod_small; assumption.
      - replace i with ((i - 48) + 48) at 1 by lia. rewrite <- N.div_pow2_bits. f_equal.
        rewrite N.add_comm, N.div_add by discriminate. rewrite N.div_small by assumption. reflexivity. }
    rewrite D. destruct (N.ltb_spec i 48) as [Hi|Hi].
    - rewrite N.mul_pow2_bits_low by assumption. reflexivity.
    - rewrite N.mul_pow2_bits_high by assumption.
      assert (N.testbit sq i = false) as ->; [|apply orb_false_r].
      destruct (N.eq_dec sq 0) as [->|Hs0]; [apply N.bits_0|].
      apply N.bits_above_log2. apply N.log2_lt_pow2 in H2; lia. }
  rewrite E. change (2 ^ 64) with (2 ^ 16 * 2 ^ 48) in *.
  assert (ep * 2 ^ 48 + sq < 2 ^ 16 * 2 ^ 48) by (change (2 ^ 16) with 65536 in *; change (2 ^ 48) with 281474976710656 in *; lia).
  split; [apply N.mod_small; assumption|].
  apply N.mod_lt. discriminate.
Qed.

(** ** Additional data *)
Lemma aad12_inj : forall c1 e1 s1 l1 c2 e2 s2 l2,
  e1 < 2^16 -> e2 < 2^16 -> s1 < 2^48 -> s2 < 2^48 -> l1 < 2^16 -> l2 < 2^16 ->
  aad12 c1 e1 s1 l1 = aad12 c2 e2 s2 l2 -> (c1, e1, s1, l1) = (c2, e2, s2, l2).
Proof.
  intros c1 e1 s1 l1 c2 e2 s2 l2 H1 H2 H3 H4 H5 H6 E. unfold aad12 in E.
  apply app_inj_len in E as [E1 E]; [|rewrite !be_length; reflexivity].
  apply app_inj_len in E as [E2 E]; [|rewrite !be_length; reflexivity].
  apply app_inj_len in E as [E3 E4]; [|reflexivity]. injection E3 as ->.
  apply be_inj in E1, E2, E4; try assumption. congruence.
Qed.

(** ** HKDF and the TLS 1.2 PRF *)

Lemma hkdf_label_inj : forall p l1 c1 n1 l2 c2 n2 i,
  hkdf_label p l1 c1 n1 = Some i -> hkdf_label p l2 c2 n2 = Some i ->
  l1 = l2 /\ c1 = c2 /\ n1 = n2.
Proof.
  intros p l1 c1 n1 l2 c2 n2 i H1 H2. unfold hkdf_label in *.
  destruct ((255 <? len p + len l1) || (255 <? len c1) || (65535 <? n1)) eqn:B1; [discriminate|].
  destruct ((255 <? len p + len l2) || (255 <? len c2) || (65535 <? n2)) eqn:B2; [discriminate|].
  assert (SI : forall A (x y : A), Some x = Some y -> x = y) by congruence.
  rewrite <- H2 in H1. apply SI in H1 as E.
  apply app_inj_len in E as [E1 E]; [|rewrite !be_length; reflexivity].
  apply app_inj_len in E as [E2 E]; [|rewrite !be_length; reflexivity].
  apply be_inj in E1; [|change (256 ^ N.of_nat 2) with 65536; lia|change (256 ^ N.of_nat 2) with 65536; lia].
  apply be_inj in E2; [|change (256 ^ N.of_nat 1) with 256; lia|change (256 ^ N.of_nat 1) with 256; lia].
  apply app_inv_head in E.
  apply app_inj_len in E as [E3 E]; [|unfold len in *; lia].
  apply app_inj_len in E as [_ E4]; [|rewrite !be_length; reflexivity].
  auto.
Qed.

Lemma hkdf_label_limits : forall p l c n,
  hkdf_label p l c n = None <-> 255 < len p + len l \/ 255 < len c \/ 65535 < n.
Proof.
  intros. unfold hkdf_label.
  destruct ((255 <? len p + len l) || (255 <? len c) || (65535 <? n)) eqn:B; split; intros H; try discriminate; try reflexivity; lia.
Qed.

(** RFC 5869: T(0) = "", T(i) = HMAC(prk, T(i-1) | info | i). *)
Fixpoint hkdf_T (mac : bytes -> bytes) (info : bytes) (i : nat) : bytes :=
  match i with
  | O => []
  | S j => mac (hkdf_T mac info j ++ info ++ [N.of_nat (S j)])
  end.
(** T(1) | ... | T(n) *)
Definition hkdf_stream (mac : bytes -> bytes) (info : bytes) (n : nat) : bytes :=
  flat_map (hkdf_T mac info) (seq 1 n).

Section Hkdf.
Variable E : Env.
Variable h : N.
Variable prk : bytes.
Variable mac : bytes -> bytes.
Hypothesis mac_is : forall d, e_hmac E h prk d = Some (mac d).
Hypothesis mac_len : forall d, length (mac d) = hash_len h.

Lemma hkdf_loop_spec : forall info rounds j L, (j + rounds <= 255)%nat ->
  hkdf_loop E h prk info rounds (N.of_nat (S j)) (hkdf_T mac info j) L =
  Some (firstn L (flat_map (hkdf_T mac info) (seq (S j) rounds))).
Proof.
  intros info rounds; induction rounds as [|r IH]; intros j L Hj; cbn [hkdf_loop seq flat_map].
  - rewrite firstn_nil; reflexivity.
  - assert (u8 (N.of_nat (S j)) = N.of_nat (S j)) as -> by (apply N.mod_small; cbn; lia).
    rewrite mac_is. change (mac (hkdf_T mac info j ++ info ++ [N.of_nat (S j)])) with (hkdf_T mac info (S j)).
    replace (N.of_nat (S j) + 1) with (N.of_nat (S (S j))) by lia.
    rewrite IH by lia. f_equal. rewrite firstn_app. f_equal.
    + destruct (Nat.le_ge_cases L (length (hkdf_T mac info (S j)))).
      * rewrite Nat.min_l by assumption. reflexivity.
      * rewrite Nat.min_r by assumption. rewrite !firstn_all2 by lia. reflexivity.
    + f_equal. lia.
Qed.

Lemma hkdf_stream_length : forall info n, length (hkdf_stream mac info n) = (n * hash_len h)%nat.
Proof.
  intros info n. unfold hkdf_stream.
  assert (G : forall k, length (flat_map (hkdf_T mac info) (seq (S k) n)) = (n * hash_len h)%nat).
  { induction n as [|n IH]; intros k; [reflexivity|]. cbn [seq flat_map]. rewrite app_length, IH.
    cbn [hkdf_T]. rewrite mac_len. lia. }
  apply G.
Qed.

Lemma hkdf_expand_spec : forall info L, (0 < hash_len h)%nat ->
  hkdf_expand E h prk info L =
  if Nat.leb L (255 * hash_len h) then Some (firstn L (hkdf_stream mac info 255)) else None.
Proof.
  intros info L Hh. unfold hkdf_expand, div_ceil.
  set (n := ((L + hash_len h - 1) / hash_len h)%nat).
  assert (Hn1 : (L <= n * hash_len h)%nat).
  { pose proof (Nat.div_mod (L + hash_len h - 1) (hash_len h)). fold n in H.
    pose proof (Nat.mod_upper_bound (L + hash_len h - 1) (hash_len h)). nia. }
  assert (Hn2 : (n * hash_len h <= L + hash_len h - 1)%nat).
  { unfold n. rewrite Nat.mul_comm. apply Nat.mul_div_le. lia. }
  destruct (Nat.ltb_spec 255 n) as [Hb|Hb].
  - destruct (Nat.leb_spec L (255 * hash_len h)); [|reflexivity]. exfalso. nia.
  - destruct (Nat.leb_spec L (255 * hash_len h)); [|exfalso; nia].
    pose proof (hkdf_loop_spec info n 0 L) as S. cbn [hkdf_T] in S. change (N.of_nat 1) with 1 in S.
    rewrite S by lia. f_equal.
    fold (hkdf_stream mac info n).
    assert (EQ : hkdf_stream mac info 255 = hkdf_stream mac info n ++
              flat_map (hkdf_T mac info) (seq (1 + n) (255 - n))).
    { unfold hkdf_stream. rewrite <- flat_map_app, <- seq_app. f_equal. f_equal. lia. }
    rewrite EQ, firstn_app, hkdf_stream_length.
    replace (L - n * hash_len h)%nat with 0%nat by lia. rewrite app_nil_r. reflexivity.
Qed.

(** RFC 5246 5: A(0) = seed, A(i) = HMAC(secret, A(i-1)),
    P_hash = HMAC(secret, A(1) | seed) | HMAC(secret, A(2) | seed) | ... *)
Fixpoint prf_A (seed : bytes) (i : nat) : bytes :=
  match i with O => seed | S j => mac (prf_A seed j) end.
Definition prf_stream (seed : bytes) (n : nat) : bytes :=
  flat_map (fun i => mac (prf_A seed i ++ seed)) (seq 1 n).

Lemma prf_stream_length : forall seed n, length (prf_stream seed n) = (n * hash_len h)%nat.
Proof.
  intros seed n. unfold prf_stream. generalize 1%nat.
  induction n as [|n IH]; intros k; [reflexivity|]. cbn [seq flat_map]. rewrite app_length, IH, mac_len. lia.
Qed.

Lemma prf_loop_spec : forall seed fuel j L, (0 < hash_len h)%nat -> (L <= fuel)%nat ->
  prf_loop E h prk seed fuel (prf_A seed j) L =
  Some (firstn L (flat_map (fun i => mac (prf_A seed i ++ seed)) (seq j L))).
Proof.
  intros seed fuel; induction fuel as [|f IH]; intros j L Hh HL.
  - assert (L = 0%nat) by lia. subst. reflexivity.
  - destruct L as [|L']; [reflexivity|]. cbn [prf_loop]. rewrite mac_is.
    remember (S L') as L eqn:EL. rewrite mac_len.
    assert (SQ : seq j L = j :: seq (S j) L') by (subst; reflexivity).
    destruct (Nat.ltb_spec (Nat.min L (hash_len h)) L) as [Hb|Hb].
    + rewrite mac_is. change (mac (prf_A seed j)) with (prf_A seed (S j)).
      rewrite IH by lia. rewrite SQ. cbn [flat_map]. rewrite firstn_app, mac_len.
      f_equal. rewrite Nat.min_r by lia. f_equal.
      * rewrite !firstn_all2 by (rewrite mac_len; lia). reflexivity.
      * (* the shorter sequence suffices *)
        set (k := (L - hash_len h)%nat).
        assert (EQ : seq (S j) L' = seq (S j) k ++ seq (S j + k) (L' - k)).
        { rewrite <- seq_app. f_equal. lia. }
        rewrite EQ, flat_map_app, firstn_app.
        assert (G : forall a m, length (flat_map (fun i => mac (prf_A seed i ++ seed)) (seq a m)) = (m * hash_len h)%nat).
        { intros a m; revert a. induction m as [|m IHm]; intros a; [reflexivity|].
          cbn [seq flat_map]. rewrite app_length, IHm, mac_len. lia. }
        rewrite G. replace (k - k * hash_len h)%nat with 0%nat by nia. rewrite app_nil_r. reflexivity.
    + rewrite SQ. cbn [flat_map]. rewrite firstn_app, mac_len.
      replace (L - hash_len h)%nat with 0%nat by lia. rewrite app_nil_r.
      f_equal. f_equal. lia.
Qed.

Lemma prf_tls12_spec : forall label seed L, (0 < hash_len h)%nat ->
  prf_tls12 E h prk label seed L = Some (firstn L (prf_stream (label ++ seed) L)).
Proof.
  intros label seed L Hh. unfold prf_tls12. rewrite mac_is.
  change (mac (label ++ seed)) with (prf_A (label ++ seed) 1).
  rewrite prf_loop_spec by lia. reflexivity.
Qed.
End Hkdf.
