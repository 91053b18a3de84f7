(** What a DTLS 1.2 endpoint with receive protection does with a datagram none of
    whose records is authentic, and after a close_notify. *)
From Coq Require Import Permutation.
From Verif Require Import Prelude PreludeFacts Types Codec CodecProofs Codec12 Record12 Monad MonadFacts Timer Env
  Config Aead Prf Window WindowProofs Context12 Engine12 Client12 Server12 Engine12Frame Send12Proofs History12
  History12Facts EndFrame12 View12 Poll12Proofs Spec Record12Proofs Rx12Proofs Timer12Proofs Ledger12
  ClientInv12 ClientStep12 ServerInv12 ServerStep12 Events12 Lift12 Step12 Keys12 Rx12Ledger.

(** ** Authentic records *)

(** [authentic12 E e raw ct ep sq d]: [raw] is a DTLS 1.2 record of type [ct], epoch
    [ep] <> 0 and number [sq] whose payload opens, under the key and IV the peer
    writes with, to [d].  For suites with an explicit nonce the payload starts with
    its 8 bytes (RFC 5288); otherwise the nonce is the IV xored with the number
    (RFC 7905). *)
Definition authentic12 (E : Env) (e : Eng12) (raw : bytes) (ct ep sq : N) (d : bytes) : Prop :=
  exists cs i key iv v payload,
    en_suite e = Some cs /\ find12 E cs = Some i /\
    (if en_client e then k_scipher (en_crypto e) else k_ccipher (en_crypto e)) = Some (cs, key) /\
    (if en_client e then k_siv (en_crypto e) else k_civ (en_crypto e)) = Some iv /\
    is_record12 raw ct v ep sq payload /\ (v = 65279 \/ v = 65277) /\ ep <> 0 /\
    (s12_enl i + s12_tag i <= length payload)%nat /\
    let n := N.of_nat (length payload) - u16 (N.of_nat (s12_enl i + s12_tag i)) in
    let aad := be 2 ep ++ be 6 sq ++ [ct; 254; 253] ++ be 2 n in
    (s12_enl i = 0%nat /\ length iv = 12%nat /\
       e_open E cs key (nonce_xor iv (seq64 ep sq)) aad payload = Some d) \/
    (s12_enl i = 8%nat /\ length iv = 4%nat /\
       e_open E cs key (iv ++ firstn 8 payload) aad (skipn 8 payload) = Some d).

Section Rx.
Variable E : Env.
Hypothesis SOK : suites12_ok E.

Lemma slice_len off n (l : bytes) : (off + n <= length l)%nat -> length (slice off n l) = n.
Proof. intro H. unfold slice. rewrite firstn_length, skipn_length. lia. Qed.

Lemma opens_authentic e raw ct ep sq d : linked E e -> keyed E e -> bytes_ok raw -> record_of raw raw ->
  opens E e raw ct ep sq d -> authentic12 E e raw ct ep sq d.
Proof.
  intros Li (cs & i & ms & cr & sr & kb & K1 & K2 & K3 & K4 & K5 & K6 & K7 & K8 & K9 & K10) B Rof
    (r & iv & nonce & O1 & O2 & O3 & O4 & O5 & O6 & O7 & O8 & O9).
  unfold linked in Li. rewrite K1 in Li. destruct Li as (i' & L1 & L2 & L3). rewrite K2 in L1. injection L1 as <-.
  destruct (parsed_shape _ _ B O1) as (_ & Hlen & F & V & _).
  pose proof (parsed_record _ _ _ B Rof O1) as Hraw.
  assert (Sk : forall n, skipn (13 + n) raw = skipn n (r_frag r)).
  { intro n. rewrite Hraw. reflexivity. }
  assert (Hk : exists key, peer_cipher e = Some (cs, key)).
  { unfold peer_cipher. destruct (en_client e); eauto. }
  destruct Hk as (key & Hk).
  exists cs, i, key, iv, (r_version r), (r_frag r). split; [exact K1|]. split; [exact K2|].
  split; [exact Hk|]. split; [exact O6|]. subst ct ep sq.
  split; [rewrite Hraw at 1; apply s_rec12_layout; exact F|]. split; [apply V|]. split; [exact O5|].
  split; [rewrite Hlen, L3 in O9; unfold len in O9; lia|].
  rewrite L2, L3, Hlen in *. unfold len in *. rewrite Sk in O8. rewrite Hk in O8. cbn [cipher_open] in O8.
  unfold record_nonce in O7.
  assert (Hiv : length iv = s12_iv i).
  { apply prf_length in K6. unfold peer_iv in O6. destruct (en_client e); rewrite ?K9, ?K10 in O6; injection O6 as <-; apply slice_len; lia. }
  destruct (SOK _ _ K2) as [[S1 S2]|[S1 S2]]; rewrite S2 in *.
  - right. split; [reflexivity|]. split; [congruence|]. destruct (Nat.eqb _ _); [|discriminate]. injection O7 as <-. exact O8.
  - left. split; [reflexivity|]. split; [congruence|]. destruct (Nat.eqb _ _); [|discriminate]. injection O7 as <-. exact O8.
Qed.
Lemma authentic_opens e raw ct ep sq d : linked E e -> bytes_ok raw ->
  authentic12 E e raw ct ep sq d -> opens E e raw ct ep sq d.
Proof.
  intros Li B (cs & i & key & iv & v & payload & A1 & A2 & A3 & A4 & A5 & A6 & A7 & A8 & A9).
  unfold linked in Li. rewrite A1 in Li. destruct Li as (i' & L1 & L2 & L3). rewrite A2 in L1. injection L1 as <-.
  destruct (layout_s_rec12 _ _ _ _ _ _ B A5) as [Hraw F].
  assert (V : valid_header12 ct v ep) by (split; [exact A6|intro; contradiction]).
  set (r := mkRec ct v ep sq (len payload) payload (if ct =? CT_HS then p_frags12 8 payload else []) false raw).
  assert (Hp : p_parsed12 0 raw = Some r).
  { unfold p_parsed12. rewrite Hraw at 1. rewrite <- (app_nil_r (s_rec12 _ _ _ _ _)). rewrite p_rec12_s by assumption. reflexivity. }
  assert (Sk : forall n, skipn (13 + n) raw = skipn n payload) by (intro n; rewrite Hraw; reflexivity).
  exists r, iv.
  assert (X : exists nonce, record_nonce (en_enl e) iv ep sq (firstn (en_enl e) payload) = Some nonce /\
    e_open E cs key nonce (aad12 ct ep sq (len payload - u16 (N.of_nat (en_minp e)))) (skipn (en_enl e) payload) = Some d).
  { unfold record_nonce. rewrite L2, L3. destruct A9 as [(B1 & B2 & B3)|(B1 & B2 & B3)]; rewrite B1 in *.
    - rewrite B2. eexists. split; [reflexivity|exact B3].
    - rewrite firstn_length. replace (Nat.min 8 (length payload)) with 8%nat by lia. rewrite B2. eexists. split; [reflexivity|exact B3]. }
  destruct X as (nonce & X1 & X2). exists nonce. split; [exact Hp|]. cbn [r_ctype r_epoch r_seq r_frag r_length].
  repeat (split; [reflexivity|]). split; [exact A7|]. split; [exact A4|]. split; [exact X1|].
  split; [|rewrite L3; unfold r, len; cbn [r_length]; lia].
  rewrite Sk. unfold peer_cipher. rewrite A3. exact X2.
Qed.

(** ** Datagrams without an authentic record *)

(** An unprotected handshake record (epoch 0). *)
Definition plain_handshake (raw : bytes) : Prop :=
  exists r, p_parsed12 0 raw = Some r /\ r_ctype r = CT_HS /\ r_epoch r = 0.

Lemma keyed_nonce e r : linked E e -> keyed E e -> N.of_nat (en_minp e) <= len (r_frag r) ->
  exists iv nonce, peer_iv e = Some iv /\ record_nonce (en_enl e) iv (r_epoch r) (r_seq r) (firstn (en_enl e) (r_frag r)) = Some nonce.
Proof.
  intros Li (cs & i & ms & cr & sr & kb & K1 & K2 & K3 & K4 & K5 & K6 & K7 & K8 & K9 & K10) Hl.
  unfold linked in Li. rewrite K1 in Li. destruct Li as (i' & L1 & L2 & L3). rewrite K2 in L1. injection L1 as <-.
  apply prf_length in K6.
  assert (X : exists iv, peer_iv e = Some iv /\ length iv = s12_iv i).
  { unfold peer_iv. destruct (en_client e); rewrite ?K9, ?K10; (eexists; split; [reflexivity|]); apply slice_len; lia. }
  destruct X as (iv & X1 & X2). exists iv. rewrite X1. unfold record_nonce. rewrite L2.
  destruct (SOK _ _ K2) as [[S1 S2]|[S1 S2]]; rewrite S2 in *.
  - rewrite firstn_length, X2, S1. unfold len in Hl. replace (Nat.min 8 (length (r_frag r))) with 8%nat by lia. eexists; split; reflexivity.
  - rewrite X2, S1. eexists; split; reflexivity.
Qed.

(** Parsing such a record changes nothing and yields at most an unprotected record. *)
Lemma rec_parse_garbage raw e : en_penc e = true -> linked E e -> keyed E e -> bytes_ok raw -> record_of raw raw ->
  (forall ct ep sq d, ~ authentic12 E e raw ct ep sq d) ->
  wp (rec_parse E raw) (fun o e' => e' = e /\ match o with
    | Ok None => True
    | Ok (Some r) => r_epoch r = 0 /\ p_parsed12 0 raw = Some r
    | Err x => x = ECrypto /\ en_release e = false
    | Panic _ => False end) e.
Proof.
  intros Pe Li K B Rof NA. unfold rec_parse. destruct (p_parsed12 0 raw) as [r|] eqn:Hp; [|apply wp_ret; auto].
  apply wp_bind, wp_get. rewrite Pe. cbn [negb]. rewrite orb_false_r.
  destruct (N.eqb_spec (r_epoch r) 0) as [E0|E0]; [apply wp_ret; auto|].
  destruct (window_check (en_replay e) (r_seq r)); cbn [negb]; [|apply wp_ret; auto].
  destruct (N.ltb_spec (r_length r) (N.of_nat (en_minp e))) as [Hl|Hl]; [apply wp_ret; auto|].
  destruct (parsed_shape _ _ B Hp) as (_ & Hlen & F & V & _).
  destruct (keyed_nonce e r Li K ltac:(rewrite <- Hlen; exact Hl)) as (iv & nonce & H1 & H2).
  unfold decryption_aad_and_nonce. apply wp_bind, wp_bind, wp_get. rewrite H1, H2. apply wp_ret.
  destruct (cipher_open E (peer_cipher e) nonce _ _) as [pt|] eqn:Ho.
  - exfalso. apply (NA (r_ctype r) (r_epoch r) (r_seq r) pt). apply opens_authentic; auto. exists r, iv, nonce. repeat split; auto.
  - destruct (en_release e) eqn:Hr; [apply wp_ret|apply wp_fail]; auto.
Qed.

Lemma parse_loop_garbage fuel : forall room p e, (length p <= fuel)%nat -> en_penc e = true -> linked E e -> keyed E e -> bytes_ok p ->
  (forall raw ct ep sq d, record_of p raw -> ~ authentic12 E e raw ct ep sq d) ->
  wp (parse_loop E fuel room p) (fun o e' => e' = e /\ match o with
    | Ok rs => Forall (fun r => r_epoch r = 0 /\ exists raw, record_of p raw /\ p_parsed12 0 raw = Some r) rs
    | Err x => x = ETransient \/ x = ECrypto /\ en_release e = false
    | Panic _ => False end) e.
Proof.
  induction fuel as [|fuel IH]; intros room p e Lf Pe Li K B NA; cbn [parse_loop]; destruct p as [|b p];
    try (apply wp_ret; split; [reflexivity|constructor]); [cbn in Lf; lia|].
  set (q := b :: p) in *. clearbody q. clear b p.
  destruct (Nat.ltb_spec (length q) HEADER_LEN) as [H1|H1]; [apply wp_fail; auto|]. cbv zeta. unfold HEADER_LEN in *.
  change ((13 + N.to_nat (unbe (firstn 2 (skipn 11 q))))%nat) with (cut q).
  destruct (Nat.ltb_spec (length q) (cut q)) as [H2|H2]; [apply wp_fail; auto|].
  assert (Rof : record_of q (firstn (cut q) q)) by (constructor; assumption).
  pose proof (record_of_refl _ _ Rof) as Rof'.
  assert (Bs : bytes_ok (skipn (cut q) q)).
  { unfold bytes_ok in *. rewrite <- (firstn_skipn (cut q) q) in B. apply Forall_app in B. apply B. }
  assert (Ls : (length (skipn (cut q) q) <= fuel)%nat) by (rewrite skipn_length; unfold cut in *; lia).
  assert (NA' : forall raw ct ep sq d, record_of (skipn (cut q) q) raw -> ~ authentic12 E e raw ct ep sq d).
  { intros raw ct ep sq d Hr. apply NA. apply record_next; assumption. }
  apply wp_bind. eapply wp_mono; [apply (rec_parse_garbage _ e Pe Li K (record_of_bytes _ _ B Rof) Rof'); intros; apply NA, Rof|]. cbv beta.
  intros o e1 [-> U]. destruct o as [[r|]|x|x]; [| |auto|auto].
  - destruct room as [|room]; [apply wp_fail; auto|].
    apply wp_bind. eapply wp_mono; [apply (IH room _ e Ls Pe Li K Bs NA')|]. cbv beta. intros o e2 [-> U2].
    destruct o as [rs|x|x]; [|auto..]. apply wp_ret. split; [reflexivity|]. destruct U as [U0 U]. constructor; [split; [exact U0|eauto]|].
    eapply Forall_impl; [|exact U2]. intros r' (X1 & raw & X2 & X3). split; [exact X1|]. exists raw. split; [apply record_next; assumption|exact X3].
  - eapply wp_mono; [apply (IH room _ e Ls Pe Li K Bs NA')|]. cbv beta. intros o e2 [-> U2]. split; [reflexivity|].
    destruct o as [rs|x|x]; [|auto..].
    eapply Forall_impl; [|exact U2]. intros r' (X1 & raw & X2 & X3). split; [exact X1|]. exists raw. split; [apply record_next; assumption|exact X3].
Qed.

Lemma classify_plain rs : forall e, en_penc e = true -> Forall (fun r => r_epoch r = 0) rs -> Forall (fun r => r_ctype r <> CT_APP) rs ->
  (forall r, In r rs -> memN (r_ctype r) [CT_CCS; CT_ALERT; CT_HS] = true) ->
  wp (classify_all rs) (fun o e' => e' = e /\ exists rs', o = Ok rs' /\
    Forall (fun r => In r rs /\ r_ctype r = CT_HS /\ exists h d, first_hs r = Some h /\ dupe_triggers_resend h = Some d) rs') e.
Proof.
  induction rs as [|r rs IH]; intros e Pe F0 Fa Fm; cbn [classify_all]; [apply wp_ret; split; [reflexivity|]; exists []; split; [reflexivity|constructor]|].
  inversion F0 as [|? ? E0 F0']; subst. inversion Fa as [|? ? A0 Fa']; subst.
  apply wp_bind. apply (wp_mono _ (fun o e' => e' = e /\ (o = Ok None \/ (o = Ok (Some r) /\ r_ctype r = CT_HS /\ exists h d, first_hs r = Some h /\ dupe_triggers_resend h = Some d)))).
  { unfold classify_record. apply wp_bind, wp_get. rewrite Pe, E0. cbn [N.eqb negb andb]. rewrite !andb_true_r.
    specialize (Fm r (or_introl eq_refl)). unfold memN in Fm. cbn [existsb] in Fm.
    destruct (N.eqb_spec (r_ctype r) CT_CCS) as [C|C]; [apply wp_ret; auto|].
    destruct (N.eqb_spec (r_ctype r) CT_HS) as [H|H].
    - cbn [andb]. destruct (first_hs r) as [h|] eqn:Hh; [|apply wp_ret; auto].
      destruct (dupe_triggers_resend h) as [d|] eqn:Hd; [|apply wp_ret; auto].
      rewrite H. change (CT_HS =? CT_ALERT) with false. change (CT_HS =? CT_APP) with false. rewrite andb_false_r. apply wp_ret. split; [reflexivity|right]. repeat split; eauto.
    - cbn [andb]. destruct (N.eqb_spec (r_ctype r) CT_ALERT) as [A|A]; [apply wp_ret; auto|].
      exfalso. cbn in Fm. discriminate Fm. }
  intros o e1 [-> Ho]. assert (Fm' : forall r0, In r0 rs -> memN (r_ctype r0) [CT_CCS; CT_ALERT; CT_HS] = true) by (intros; apply Fm; right; assumption).
  destruct Ho as [->|(-> & Ho)].
  - apply wp_bind. eapply wp_mono; [apply (IH e Pe F0' Fa' Fm')|]. cbv beta. intros o' e2 (-> & rs' & -> & R).
    apply wp_ret. split; [reflexivity|]. exists rs'. split; [reflexivity|]. eapply Forall_impl; [|exact R]. intros x (X & Y). split; [right; exact X|exact Y].
  - apply wp_bind. eapply wp_mono; [apply (IH e Pe F0' Fa' Fm')|]. cbv beta. intros o' e2 (-> & rs' & -> & R).
    apply wp_ret. split; [reflexivity|]. exists (r :: rs'). split; [reflexivity|]. constructor; [split; [left; reflexivity|exact Ho]|].
    eapply Forall_impl; [|exact R]. intros x (X & Y). split; [right; exact X|exact Y].
Qed.
Lemma epoch0_types raw r : p_parsed12 0 raw = Some r -> r_epoch r = 0 -> memN (r_ctype r) [CT_CCS; CT_ALERT; CT_HS] = true.
Proof.
  unfold p_parsed12, p_rec12. destruct (p_u8 raw) as [[ct l]|]; [|discriminate]. destruct (p_u16 l) as [[v l1]|]; [|discriminate].
  destruct (negb _); [discriminate|]. destruct (p_u16 l1) as [[ep l2]|]; [|discriminate].
  destruct ((ep =? 0) && _) eqn:Hc; [discriminate|]. destruct (p_u48 l2) as [[sq l3]|]; [|discriminate].
  destruct (p_u16 l3) as [[n l4]|]; [|discriminate]. destruct (take _ _) as [[f r']|]; [|discriminate].
  intros [= <-]. cbn [r_epoch r_ctype]. intros ->. cbn [N.eqb andb] in Hc. destruct (memN ct _); [reflexivity|discriminate].
Qed.

(** A datagram with no authentic record and no unprotected handshake record. *)
Lemma parse_garbage p e : en_penc e = true -> linked E e -> keyed E e -> bytes_ok p ->
  (forall raw ct ep sq d, record_of p raw -> ~ authentic12 E e raw ct ep sq d) ->
  (forall raw, record_of p raw -> ~ plain_handshake raw) ->
  wp (eng12_parse_packet E p) (fun o e' => e' = e /\ (o = Ok tt \/ o = Err ETransient \/ (o = Err ECrypto /\ en_release e = false))) e.
Proof.
  intros Pe Li K B NA NP. unfold eng12_parse_packet, records_parse. apply wp_bind, wp_bind.
  eapply wp_mono; [apply (parse_loop_garbage _ _ p e (Nat.le_refl _) Pe Li K B NA)|]. cbv beta. intros o e1 [-> U].
  destruct o as [rs|x|x]; [|split; [reflexivity|]; destruct U as [->|[-> U]]; auto|destruct U].
  eapply wp_mono; [apply (classify_plain rs e Pe)|].
  - eapply Forall_impl; [|exact U]. intros r (X & _). exact X.
  - eapply Forall_impl; [|exact U]. intros r (X & raw & _ & Y). eapply epoch0_not_app; eauto.
  - intros r Hr. rewrite Forall_forall in U. destruct (U r Hr) as (X & raw & _ & Y). eapply epoch0_types; eauto.
  - cbv beta. intros o e2 (-> & rs' & -> & R). destruct rs' as [|r rest]; [apply wp_ret; auto|].
    exfalso. inversion R as [|? ? (R1 & R2 & _) _]; subst. rewrite Forall_forall in U. destruct (U r R1) as (X & raw & Y & Z).
    apply (NP raw Y). exists r. auto.
Qed.

(** With unprotected handshake records: an error only when the receive queue is
    full, and at most a retransmission to a peer that has not confirmed. *)
Lemma parse_garbage_handshake p e : en_penc e = true -> linked E e -> keyed E e -> bytes_ok p ->
  (forall raw ct ep sq d, record_of p raw -> ~ authentic12 E e raw ct ep sq d) ->
  wp (eng12_parse_packet E p) (fun o e' =>
    (e' = e /\ (o = Ok tt \/ o = Err ETransient \/ (o = Err ECrypto /\ en_release e = false) \/
                (o = Err ERxFull /\ c_max_rx (en_cfg e) <= len (en_rx e)))) \/
    (en_confirmed e = false /\ (exists raw, record_of p raw /\ plain_handshake raw) /\ (o, e') = (flight_resend E e))) e.
Proof.
  intros Pe Li K B NA. unfold eng12_parse_packet, records_parse. apply wp_bind, wp_bind.
  eapply wp_mono; [apply (parse_loop_garbage _ _ p e (Nat.le_refl _) Pe Li K B NA)|]. cbv beta. intros o e1 [-> U].
  destruct o as [rs|x|x]; [|left; split; [reflexivity|]; destruct U as [->|[-> U]]; auto|destruct U].
  eapply wp_mono; [apply (classify_plain rs e Pe)|].
  - eapply Forall_impl; [|exact U]. intros r (X & _). exact X.
  - eapply Forall_impl; [|exact U]. intros r (X & raw & _ & Y). eapply epoch0_not_app; eauto.
  - intros r Hr. rewrite Forall_forall in U. destruct (U r Hr) as (X & raw & _ & Y). eapply epoch0_types; eauto.
  - cbv beta. intros o e2 (-> & rs' & -> & R). destruct rs' as [|r rest]; [apply wp_ret; left; auto|].
    inversion R as [|? ? (R1 & R2 & h & d & R3 & R4) _]; subst. rewrite Forall_forall in U. destruct (U r R1) as (X & raw & Y & Z).
    unfold insert_incoming. apply wp_bind, wp_get. destruct (N.leb_spec (c_max_rx (en_cfg e)) (len (en_rx e))); [apply wp_fail; left; auto 10|].
    rewrite R3. unfold insert_incoming_handshake. apply wp_bind, wp_get. cbv zeta. cbn [first_some]. rewrite R3, R4.
    rewrite Pe, X. cbn [N.eqb andb].
    unfold when. destruct ((d <? en_peer_hs e) && negb (en_confirmed e)) eqn:Hc.
    + apply andb_prop in Hc. destruct Hc as [_ Hc]. apply negb_true_iff in Hc. apply wp_bind, wp_intro. intros o e2 Ho.
      assert (P : (exists raw, record_of p raw /\ plain_handshake raw)) by (exists raw; split; [exact Y|]; exists r; auto).
      destruct o as [[]|x|x].
      * destruct (f_seq h <? en_peer_hs e); apply wp_ret; right; auto.
      * right; auto.
      * right; auto.
    + apply wp_bind, wp_ret. destruct (f_seq h <? en_peer_hs e); apply wp_ret; left; auto.
Qed.
End Rx.

(** ** After a close_notify *)

Section After.
Variable E : Env.

Definition Rcl (a b : Eng12) : Prop :=
  en_cn_recv a = true -> en_penc a = true ->
  en_cn_recv b = true /\ en_penc b = true /\ sub (app_items (en_rx b)) (app_items (en_rx a)).
Lemma Rcl_po : preorder Rcl.
Proof.
  split; unfold Rcl; [intros; repeat split; auto; apply sub_refl|].
  intros a b c H K C P. destruct (H C P) as (H1 & H2 & H3). destruct (K H1 H2) as (K1 & K2 & K3). repeat split; auto. eapply sub_trans; eauto.
Qed.
Lemma Rq_Rcl a b : Rq a b -> Rcl a b.
Proof. intros (Q1 & Q2 & Q3 & Q4 & Q5) C P. rewrite Q3, Q4. repeat split; auto. apply wk_items, Q1. Qed.
Lemma Rq_Rcl_pres {A} (m : M Eng12 A) : pres Rq m -> pres Rcl m.
Proof. intros H s. apply Rq_Rcl, H. Qed.

Definition same_rx (a b : Eng12) : Prop := en_rx b = en_rx a /\ en_cn_recv b = en_cn_recv a /\ en_penc b = en_penc a.
Lemma same_rx_po : preorder same_rx.
Proof. split; unfold same_rx; [auto|]. intuition congruence. Qed.

Lemma classify_closed rs : forall e, en_cn_recv e = true -> en_penc e = true ->
  wp (classify_all rs) (fun o e' => en_rx e' = en_rx e /\ en_cn_recv e' = true /\ en_penc e' = true /\
    match o with Ok rs' => Forall (fun r => r_ctype r <> CT_APP) rs' | _ => True end) e.
Proof.
  induction rs as [|r rs IH]; intros e C P; cbn [classify_all]; [apply wp_ret; auto|].
  apply wp_bind. apply (wp_mono _ (fun o e' => en_rx e' = en_rx e /\ en_cn_recv e' = true /\ en_penc e' = true /\
    match o with Ok (Some r') => r_ctype r' <> CT_APP | _ => True end)).
  { unfold classify_record. apply wp_bind, wp_get. rewrite C, P. cbn [negb].
    destruct (_ && _ && true); [apply wp_ret; auto|].
    destruct (_ && _); [apply wp_ret; auto|]. cbn [andb].
    destruct (N.eqb_spec (r_ctype r) CT_ALERT) as [A|A].
    - destruct (_ =? _); [apply wp_ret; auto|]. destruct (r_frag r) as [|lvl [|desc rest]]; [apply wp_ret; auto..|].
      destruct (_ =? _); [apply wp_bind, wp_modify, wp_ret; auto|]. destruct (_ =? _); [apply wp_fail|apply wp_ret]; auto.
    - destruct (N.eqb_spec (r_ctype r) CT_APP); apply wp_ret; auto. }
  intros o e1 (X1 & X2 & X3 & X4). destruct o as [o|x|x]; [|auto..].
  apply wp_bind. eapply wp_mono; [apply (IH e1 X2 X3)|]. cbv beta. intros o' e2 (Y1 & Y2 & Y3 & Y4). rewrite X1 in Y1.
  destruct o' as [rs'|x|x]; [|auto..]. apply wp_ret. repeat split; auto. destruct o; [constructor|]; auto.
Qed.
Lemma no_app_items inc : Forall (fun r => r_ctype r <> CT_APP) inc -> filter unhandled_app inc = [].
Proof.
  induction 1 as [|r inc H F IH]; cbn [filter]; [reflexivity|]. unfold unhandled_app at 1, is_app.
  destruct (N.eqb_spec (r_ctype r) CT_APP); [contradiction|exact IH].
Qed.
Lemma Rcl_parse p : pres Rcl (eng12_parse_packet E p).
Proof.
  intros e C P. apply (wp_run (eng12_parse_packet E p) (fun _ b => en_cn_recv b = true /\ en_penc b = true /\ sub (app_items (en_rx b)) (app_items (en_rx e))) e (fst (eng12_parse_packet E p e))); [apply surjective_pairing|].
  unfold eng12_parse_packet, records_parse. apply wp_bind, wp_bind.
  eapply wp_mono; [apply (wp_pres same_rx), (fr_parse_loop E); first [exact same_rx_po|intros; repeat split]|]. cbv beta. intros o e1 (S1 & S2 & S3).
  rewrite <- S1. rewrite <- S2 in C. rewrite <- S3 in P. clear S1 S2 S3.
  assert (Z : en_cn_recv e1 = true /\ en_penc e1 = true /\ sub (app_items (en_rx e1)) (app_items (en_rx e1))) by (repeat split; auto using sub_refl).
  destruct o as [rs|x|x]; [|exact Z..]. eapply wp_mono; [apply (classify_closed rs e1 C P)|]. cbv beta. intros o e2 (X1 & X2 & X3 & X4).
  rewrite <- X1. clear Z. assert (Z : en_cn_recv e2 = true /\ en_penc e2 = true /\ sub (app_items (en_rx e2)) (app_items (en_rx e2))) by (repeat split; auto using sub_refl).
  destruct o as [rs'|x|x]; [|exact Z..]. destruct rs' as [|r rest]; [apply wp_ret; exact Z|]. set (inc := r :: rest) in *. clearbody inc.
  eapply wp_mono; [apply insert_spec|]. cbv beta. intros o e3 I3.
  assert (Hm : Forall (fun r => r_ctype r <> CT_APP) (map mark_plain_hs inc)).
  { apply Forall_map. eapply Forall_impl; [|exact X4]. intros x Hx. destruct (plain_weaker x) as [-> _]. exact Hx. }
  destruct I3 as [[(A1 & A2 & A3 & _) _]|(i & inc' & [(A1 & A2 & A3 & _) _] & Hi)]; cbn [en_rx en_cn_recv en_penc set_en_rx] in A1, A2, A3; rewrite A1, A2, A3; [exact Z|].
  split; [exact X2|]. split; [exact X3|].
  assert (Hn : filter unhandled_app inc' = []) by (apply no_app_items; destruct Hi as [-> | ->]; assumption).
  replace (app_items (insert_at i inc' (en_rx e2))) with (app_items (en_rx e2)); [apply sub_refl|].
  unfold app_items, insert_at. rewrite <- (firstn_skipn i (en_rx e2)) at 1. rewrite !concat_app, !filter_app. cbn [concat]. rewrite filter_app, Hn. reflexivity.
Qed.
Lemma Rcl_enable : pres Rcl (enable_peer_encryption E).
Proof.
  intros e C P. apply (wp_run (enable_peer_encryption E) (fun _ b => en_cn_recv b = true /\ en_penc b = true /\ sub (app_items (en_rx b)) (app_items (en_rx e))) e (fst (enable_peer_encryption E e))); [apply surjective_pairing|].
  unfold enable_peer_encryption. apply wp_bind, wp_modify, wp_bind, wp_get.
  change (en_rx (set_en_penc true e)) with (en_rx e).
  destruct (split_epoch1 (en_rx e)) as [keep again] eqn:Hs. pose proof (split_epoch1_app _ _ _ Hs) as Hq.
  apply wp_bind, wp_modify.
  eapply wp_mono; [apply (wp_pres Rcl), (pres_iterM Rcl Rcl_po); intro; apply Rcl_parse|]. cbv beta. intros r e' H.
  destruct (H C eq_refl) as (H1 & H2 & H3). split; [exact H1|]. split; [exact H2|]. eapply sub_trans; [exact H3|].
  cbn [en_rx set_en_rx]. rewrite Hq. apply wk_items. rewrite concat_app. rewrite <- (app_nil_r (concat keep)) at 1. apply wk_app; [apply wk_refl|apply wk_nil].
Qed.
Lemma Rq_poll cap now : pres Rq (eng12_poll_output cap now).
Proof.
  unfold eng12_poll_output, poll_app_data, poll_packet_tx.
  presauto Rq_po ltac:(apply pres_modify; intros s0; unfold Rq; cbn [en_rx en_replay en_cn_recv en_penc en_release set_en_rx set_en_tx set_en_cn_rep];
  (split; [first [apply wk_refl | apply mark_first_wk | apply purge_wk]|repeat split; auto])).
Qed.
Lemma Rcl_frame : eng_frame E Rcl.
Proof.
  pose proof (Rq_mid E) as F. destruct F as [[F1 F2 F3 F4 F5 F6 F7 F8 F9 F10 F11 F12 F13] F14 F15].
  constructor; [constructor|..]; try (apply Rq_Rcl_pres; assumption); try (intros; apply Rq_Rcl_pres; auto; fail).
  - exact Rcl_po.
  - intros. apply Rq_Rcl, F14.
  - intros. apply Rq_Rcl, F2.
  - intros mt mk H. apply (fr_create_handshake E Rcl Rcl_po); try exact H; intros; (intros C P; repeat split; auto; apply sub_refl).
  - exact Rcl_enable.
  - intros v s C P. repeat split; auto; apply sub_refl.
  - exact Rcl_parse.
  - intros. apply Rq_Rcl_pres, Rq_poll.
  - intros. apply Rq_Rcl_pres, Rq_timeout.
Qed.

Lemma purge_items q : app_items (purge_handled q) = app_items q.
Proof.
  unfold app_items, purge_handled. f_equal. induction q as [|l q IH]; cbn [skip_while]; [reflexivity|].
  destruct (forallb rec_handled l) eqn:H; [|reflexivity]. cbn [concat]. rewrite filter_app, IH.
  replace (filter unhandled_app l) with (@nil Rec12); [reflexivity|]. symmetry. clear -H. induction l as [|r l IHl]; cbn [filter forallb] in *; [reflexivity|].
  apply andb_prop in H. destruct H as [H1 H2]. unfold unhandled_app at 1. rewrite H1, andb_false_r. auto.
Qed.
Lemma poll_items cap now e : wp (eng12_poll_output cap now) (fun r e' =>
  sub (match r with Ok o => app_data [o] | _ => [] end ++ map snd (app_items (en_rx e'))) (map snd (app_items (en_rx e)))) e.
Proof.
  unfold eng12_poll_output. apply wp_bind, wp_modify. rewrite <- (purge_items (en_rx e)).
  remember (set_en_rx (purge_handled (en_rx e)) e) as e1 eqn:He1.
  assert (Hp : purge_handled (en_rx e) = en_rx e1) by (subst e1; reflexivity). rewrite Hp. clear He1 Hp.
  assert (Tail : wp (let! p := poll_packet_tx cap in match p with Some o => ret o | None => let! s := get in
      if en_cn_recv s && negb (en_cn_rep s) then modify (set_en_cn_rep true) ;;; ret OCloseNotify else ret (OTimeout (poll_timeout s now)) end)
    (fun r e' => sub (match r with Ok o => app_data [o] | _ => [] end ++ map snd (app_items (en_rx e'))) (map snd (app_items (en_rx e1)))) e1).
  { unfold poll_packet_tx. wps; apply sub_refl. }
  apply wp_bind. unfold poll_app_data at 1. apply wp_bind, wp_get.
  destruct (en_release e1) eqn:Hr; cbn [negb]; [|apply wp_ret; exact Tail].
  destruct (find unhandled_app (concat (en_rx e1))) as [r|] eqn:Hf; [|apply wp_ret; exact Tail]. cbv zeta.
  destruct (_ <? _); [apply wp_ret, wp_ret; apply sub_refl|].
  destruct (r_hs r) as [|? ?] eqn:Hh; [|apply wp_panic; apply sub_refl].
  apply wp_bind, wp_modify, wp_ret, wp_ret. rewrite (mark_first_items _ _ Hf Hh). apply sub_refl.
Qed.

Lemma call_after c s r s' : end12_call E c s = (r, s') -> en_cn_recv (end_eng s) = true -> en_penc (end_eng s) = true ->
  en_cn_recv (end_eng s') = true /\ en_penc (end_eng s') = true /\
  sub (app_data (output_in r) ++ map snd (app_items (en_rx (end_eng s')))) (map snd (app_items (en_rx (end_eng s)))).
Proof.
  intros H C P. destruct (lf_end_call E Rcl Rcl_frame _ _ _ _ H C P) as (H1 & H2 & H3). split; [exact H1|]. split; [exact H2|].
  destruct (match c with Poll _ => true | _ => false end) eqn:Hc.
  - destruct c; try discriminate. rewrite poll_unfold in H. destruct (end_events s) as [|[| |m x] l] eqn:He.
    + pose proof (poll_items cap (end_now s) (end_eng s)) as W. unfold wp in W. destruct (eng12_poll_output cap (end_now s) (end_eng s)) as [r0 e0].
      cbn [fst snd] in W. injection H as <- <-. destruct s; destruct r0; exact W.
    + destruct (end_certs s); [|destruct (_ <=? _)]; injection H as <- <-; destruct s; apply sub_refl.
    + injection H as <- <-; destruct s; apply sub_refl.
    + injection H as <- <-; destruct s; apply sub_refl.
  - rewrite (nonpoll_no_output E c s r s') by (auto; destruct c; cbn; auto; discriminate). apply sub_map, H3.
Qed.
Lemma history_after s0 h s : history E s0 h s -> en_cn_recv (end_eng s0) = true -> en_penc (end_eng s0) = true ->
  en_cn_recv (end_eng s) = true /\ en_penc (end_eng s) = true /\
  sub (app_data (outputs h) ++ map snd (app_items (en_rx (end_eng s)))) (map snd (app_items (en_rx (end_eng s0)))).
Proof.
  intros H C P. induction H as [|h s c r s' H IH NP Hc]; [repeat split; auto; apply sub_refl|].
  destruct IH as (I1 & I2 & I3). destruct (call_after c s r s' Hc I1 I2) as (H1 & H2 & H3). split; [exact H1|]. split; [exact H2|].
  unfold outputs. rewrite flat_map_app. cbn [flat_map fst snd]. rewrite app_nil_r. fold (outputs h). rewrite app_data_app, <- app_assoc.
  eapply sub_trans; [apply sub_app; [apply sub_refl|exact H3]|]. exact I3.
Qed.
End After.
