(** C33-C40 for DTLS 1.2: what a completed handshake has established.  The evidence
    is stated in [Evidence12], over the endpoint's transcript, configuration and
    provider. *)
From Coq Require Import String.
From Verif Require Import Prelude Types Codec Codec12 Env Config Prf Context12 Monad Timer Engine12 Client12
  Server12 Toy History12 Conn12 Runs12 Evidence12 ClientInv12 ClientStep12 ServerInv12 ServerStep12
  Poll12Proofs Events12 Auth12 Done12.
Close Scope string_scope.

(** The handshake messages sent and received so far, the agreed master secret and
    the negotiated cipher suite of an endpoint. *)
Definition transcript12 (s : End12) : bytes := en_transcript (end_eng s).
Definition master12 (s : End12) : option bytes := k_ms (en_crypto (end_eng s)).
Definition suite12_of (s : End12) : option N := en_suite (end_eng s).
Definition is_server12 (s : End12) : bool := match s with Cl _ => false | Sv _ => true end.

Ltac facts_of H HC :=
  match type of H with
  | reach12 _ _ _ _ (Cl _) => pose proof (connected_client _ _ _ _ _ H HC) as (n & Hn & F)
  | reach12 _ _ _ _ (Sv _) => pose proof (connected_server _ _ _ _ _ H HC) as (n & Hn & F)
  end; pose proof (reach_auth _ _ _ _ _ H) as [HA1 HA2]; cbn [end_eng] in HA1, HA2.

(** ** C33 *)

(** After [Connected], the transcript contains the peer's Finished, and its
    verify_data is the PRF, under the master secret, of the hash of everything
    before it. *)
Theorem C33_connected_finished12 : forall E cfg auth h s, reach12 E cfg auth h s ->
  In OConnected (outputs h) ->
  exists ms cs, master12 s = Some ms /\ suite12_of s = Some cs /\
    finished_ok E (transcript12 s) ms cs (is_server12 s).
Proof.
  intros E cfg auth h s H HC. destruct s as [c|c]; facts_of H HC.
  - apply (f_fin _ _ _ F). lia.
  - apply (g_fin _ _ _ F). lia.
Qed.
Print Assumptions C33_connected_finished12.

(** [Connected] is reported at most once. *)
Theorem C33_connected_once12 : forall E cfg auth h s, reach12 E cfg auth h s ->
  (List.length (filter is_connected (outputs h)) <= 1)%nat.
Proof. intros E cfg auth h s H. apply (connected_once _ _ _ _ _ H). Qed.
Print Assumptions C33_connected_once12.

Example C33_case : reach12 toy config_default (toy_auth 7) (fst cl_run) (snd cl_run) /\
  In OConnected (outputs (fst cl_run)) /\ In OConnected (outputs (fst sv_run)).
Proof. split; [exact cl_run_reach|]. split; vm_compute; tauto. Qed.

(** ** C34 *)

(** A client with a certificate (no PSK) is connected only to a server whose
    certificate list is in the transcript and whose signature over both randoms
    and its key share verifies under the first certificate with an offered
    algorithm; the master secret comes from that key share, and any certificate
    reported to the application is that first one. *)
Theorem C34_server_authenticated12 : forall E cfg cert key h c,
  reach12 E cfg (AuthCert cert key) h (Cl c) -> In OConnected (outputs h) ->
  exists leaf more cr sr cs pms ms hello es,
    certificates_ok (transcript12 (Cl c)) (leaf :: more) /\
    server_hello_ok (transcript12 (Cl c)) hello es /\
    sr = sh_random hello /\ cs = sh_suite hello /\ cl_random c = Some cr /\
    server_signature_ok E (transcript12 (Cl c)) leaf cr sr cs pms /\
    master12 (Cl c) = Some ms /\ master_ok E (transcript12 (Cl c)) pms ms cs /\
    (forall x, In (OPeerCert x) (outputs h) -> x = leaf).
Proof.
  intros E cfg cert key h c H HC. facts_of H HC.
  destruct (f_hello _ _ _ F) as (hello & es & H1 & H2 & H3 & H4 & H5 & H6 & H7); [lia|].
  assert (HP : c_psk c = false).
  { unfold c_psk. rewrite H2. rewrite HA2 in H6. cbn [suite_compatible] in H6.
    destruct (suite12_is_psk (sh_suite hello)) eqn:Hp; [|reflexivity].
    apply N.eqb_eq in Hp. rewrite Hp in H6. discriminate H6. }
  destruct (f_cert _ _ _ F) as [C1 C2]; [lia|exact HP|].
  destruct (f_secret _ _ _ F) as (pms & S1 & S2); [lia|auto|].
  unfold source_fact in S1. rewrite HP in S1.
  destruct S1 as (leaf & more & cr & sr & cs & L1 & L2 & L3 & L4 & L5).
  unfold secret_fact in S2. replace (n <? 10) with false in S2 by lia. replace (n <? 11) with false in S2 by lia.
  destruct S2 as (ms & cs' & M1 & M2 & M3).
  assert (cs = sh_suite hello) by congruence. assert (cs' = sh_suite hello) by congruence.
  assert (sr = sh_random hello) by congruence. subst.
  exists leaf, more, cr, (sh_random hello), (sh_suite hello), pms, ms, hello, es.
  rewrite L1 in C2. repeat (split; [eassumption || reflexivity|]).
  intros x Hx. pose proof (reported_leaf _ _ _ _ _ _ H Hx) as R. cbn [end_certs] in R. rewrite L1 in R.
  injection R as <-. reflexivity.
Qed.
Print Assumptions C34_server_authenticated12.

Example C34_case : match snd cl_run with Cl c => cl_state c = CS_AwaitApplicationData | Sv _ => False end /\
  In OConnected (outputs (fst cl_run)) /\ In (OPeerCert [48; 9]) (outputs (fst cl_run)).
Proof. split; [vm_compute; reflexivity|]. split; vm_compute; tauto. Qed.

(** ** C35 *)

(** If a client certificate was reported, the server is connected only if that
    certificate is the first of the list in the transcript and a signature over
    all previous messages verifies under it. *)
Theorem C35_client_cert_proved12 : forall E cfg auth h c x,
  reach12 E cfg auth h (Sv c) -> In OConnected (outputs h) -> In (OPeerCert x) (outputs h) ->
  client_signature_ok E (transcript12 (Sv c)) x /\
  exists more, certificates_ok (transcript12 (Sv c)) (x :: more).
Proof.
  intros E cfg auth h c x H HC Hx. facts_of H HC.
  pose proof (reported_leaf _ _ _ _ _ _ H Hx) as R. cbn [end_certs] in R.
  destruct (sv_certs c) as [|leaf more] eqn:Hs; [discriminate|]. injection R as ->.
  split; [eapply (g_cv _ _ _ F); [lia|exact Hs]|]. exists more.
  destruct (g_cert _ _ _ F) as [G|G]; [lia|congruence|]. rewrite Hs in G. exact G.
Qed.
Print Assumptions C35_client_cert_proved12.

(** The same for a certificate the server holds and has not yet reported. *)
Theorem C35_client_cert_held12 : forall E cfg auth h c leaf more,
  reach12 E cfg auth h (Sv c) -> In OConnected (outputs h) -> sv_certs c = leaf :: more ->
  client_signature_ok E (transcript12 (Sv c)) leaf /\ certificates_ok (transcript12 (Sv c)) (leaf :: more).
Proof.
  intros E cfg auth h c leaf more H HC Hs. facts_of H HC.
  split; [eapply (g_cv _ _ _ F); [lia|exact Hs]|].
  destruct (g_cert _ _ _ F) as [G|G]; [lia|congruence|]. rewrite Hs in G. exact G.
Qed.
Print Assumptions C35_client_cert_held12.

Example C35_case : reach12 toy2 config_default (toy_auth 9) (fst sv_run) (snd sv_run) /\
  In OConnected (outputs (fst sv_run)) /\ In (OPeerCert [48; 7]) (outputs (fst sv_run)).
Proof. split; [exact sv_run_reach|]. split; vm_compute; tauto. Qed.

(** ** C36 *)

(** The claim is false: a server that requires a client certificate completes with
    a client that sends an empty certificate list. *)
Theorem C36_require_client_certificate12_refuted :
  exists E cfg auth h c, reach12 E cfg auth h (Sv c) /\ c_req_cert cfg = true /\
    In OConnected (outputs h) /\ sv_certs c = [] /\ forall x, ~ In (OPeerCert x) (outputs h).
Proof.
  exists toy2, config_default, (toy_auth 9), (fst bare_run).
  destruct (snd bare_run) as [c|c] eqn:Hs.
  { exfalso. assert (K : match snd bare_run with Cl _ => False | Sv _ => True end) by (vm_compute; exact I).
    rewrite Hs in K. exact K. }
  exists c. split; [rewrite <- Hs; exact bare_run_reach|]. split; [reflexivity|].
  split; [vm_compute; tauto|]. split.
  - assert (K : match snd bare_run with Cl _ => True | Sv c => sv_certs c = [] end) by (vm_compute; reflexivity).
    rewrite Hs in K. exact K.
  - assert (K : forallb (fun o => match o with OPeerCert _ => false | _ => true end) (outputs (fst bare_run)) = true)
      by (vm_compute; reflexivity).
    rewrite forallb_forall in K. intros x Hx. specialize (K _ Hx). discriminate K.
Qed.
Print Assumptions C36_require_client_certificate12_refuted.

(** ** C37 *)

(** A server that negotiated PSK is connected only if its resolver knows the
    identity sent by the client, and the master secret comes from that key. *)
Theorem C37_psk_known12 : forall E cfg auth h c cs,
  reach12 E cfg auth h (Sv c) -> In OConnected (outputs h) ->
  suite12_of (Sv c) = Some cs -> suite12_is_psk cs = true ->
  exists identity resolve psk ms, client_identity_ok (transcript12 (Sv c)) identity /\
    cfg_resolver cfg = Some resolve /\ resolve identity = Some psk /\
    master12 (Sv c) = Some ms /\ master_ok E (transcript12 (Sv c)) (psk_premaster psk) ms cs.
Proof.
  intros E cfg auth h c cs H HC Hs Hp. facts_of H HC.
  assert (HP : s_psk c = true) by (unfold s_psk, suite12_of in *; cbn [end_eng] in Hs; rewrite Hs; exact Hp).
  destruct (g_secret _ _ _ F) as (pms & S1 & S2); [lia|]. unfold s_source in S1. rewrite HP in S1.
  destruct S1 as (identity & resolve & psk & L1 & L2 & -> & L4).
  destruct S2 as (ms & cs' & M1 & M2 & M3). unfold suite12_of in Hs; cbn [end_eng] in Hs. assert (cs' = cs) by congruence. subst cs'.
  exists identity, resolve, psk, ms. rewrite HA1 in L2. repeat (split; [assumption|]).
  split; [apply L4, (g_psk _ _ _ F); [lia|exact HP]|]. split; assumption.
Qed.
Print Assumptions C37_psk_known12.

(** A PSK client uses the key its own resolver gives for the configured identity. *)
Theorem C37_psk_client12 : forall E cfg auth h c cs,
  reach12 E cfg auth h (Cl c) -> In OConnected (outputs h) ->
  suite12_of (Cl c) = Some cs -> suite12_is_psk cs = true ->
  exists identity resolve psk ms, cfg_identity cfg = Some identity /\
    cfg_resolver cfg = Some resolve /\ resolve identity = Some psk /\
    master12 (Cl c) = Some ms /\ master_ok E (transcript12 (Cl c)) (psk_premaster psk) ms cs.
Proof.
  intros E cfg auth h c cs H HC Hs Hp. facts_of H HC.
  assert (HP : c_psk c = true) by (unfold c_psk, suite12_of in *; cbn [end_eng] in Hs; rewrite Hs; exact Hp).
  destruct (f_secret _ _ _ F) as (pms & S1 & S2); [lia|right; lia|]. unfold source_fact in S1. rewrite HP in S1.
  destruct S1 as (identity & resolve & psk & L1 & L2 & L3 & ->).
  unfold secret_fact in S2. replace (n <? 10) with false in S2 by lia. replace (n <? 11) with false in S2 by lia.
  destruct S2 as (ms & cs' & M1 & M2 & M3). unfold suite12_of in Hs; cbn [end_eng] in Hs. assert (cs' = cs) by congruence. subst cs'.
  exists identity, resolve, psk, ms. rewrite HA1 in L1, L2. auto 10.
Qed.
Print Assumptions C37_psk_client12.

Example C37_case : reach12 toy2 cfg_psk_server AuthPsk (fst psk_sv_run) (snd psk_sv_run) /\
  In OConnected (outputs (fst psk_sv_run)) /\ suite12_of (snd psk_sv_run) = Some CS_PSK.
Proof. split; [exact psk_sv_run_reach|]. split; [vm_compute; tauto|vm_compute; reflexivity]. Qed.
(** With another identity the same exchange does not complete. *)
Example C37_unknown : forallb (fun o => negb (is_connected o)) (outputs (fst (snd (conn_psk [1; 2; 4])))) = true.
Proof. vm_compute. reflexivity. Qed.

(** ** C38 *)

(** Neither side completes unless the peer's hello carried extended_master_secret
    and the master secret is the extended one. *)
Theorem C38_ems12 : forall E cfg auth h s, reach12 E cfg auth h s -> In OConnected (outputs h) ->
  (match s with
   | Cl _ => exists hello es, server_hello_ok (transcript12 s) hello es /\ In X_EMS (map fst es)
   | Sv _ => exists ch, client_hello_ok (transcript12 s) ch /\ In X_EMS (map fst (ch_exts ch))
   end) /\
  exists pms ms cs, master12 s = Some ms /\ suite12_of s = Some cs /\ master_ok E (transcript12 s) pms ms cs.
Proof.
  intros E cfg auth h s H HC. destruct s as [c|c]; facts_of H HC.
  - destruct (f_hello _ _ _ F) as (hello & es & H1 & H2 & H3 & H4 & H5 & H6 & H7); [lia|].
    destruct (f_secret _ _ _ F) as (pms & S1 & S2); [lia|right; lia|].
    unfold secret_fact in S2. replace (n <? 10) with false in S2 by lia. replace (n <? 11) with false in S2 by lia.
    split; [eauto|]. destruct S2 as (ms & cs & M). exists pms, ms, cs. exact M.
  - destruct (g_hello _ _ _ F) as (ch & cs & H1 & H2 & H3 & H4 & H5 & H6 & _); [lia|].
    destruct (g_secret _ _ _ F) as (pms & S1 & (ms & cs' & M)); [lia|].
    split; [eauto|]. exists pms, ms, cs'. exact M.
Qed.
Print Assumptions C38_ems12.

(** ** C39 *)

(** Client: the negotiated suite is one the configuration and the credentials
    allow, and so is the SRTP profile one this library offers. *)
Theorem C39_client_parameters12 : forall E cfg auth h c,
  reach12 E cfg auth h (Cl c) -> In OConnected (outputs h) ->
  exists hello es, server_hello_ok (transcript12 (Cl c)) hello es /\
    suite12_of (Cl c) = Some (sh_suite hello) /\
    In (sh_suite hello) (filter (suite_compatible auth) (cfg_suites12 E cfg)) /\
    forall km p, In (OKeying km p) (outputs h) -> In p srtp_known.
Proof.
  intros E cfg auth h c H HC. facts_of H HC.
  destruct (f_hello _ _ _ F) as (hello & es & H1 & H2 & H3 & H4 & H5 & H6 & H7); [lia|].
  exists hello, es. rewrite HA1 in H4. rewrite HA2 in H6.
  split; [exact H1|]. split; [exact H2|]. split; [apply filter_In; auto|].
  intros km p Hk. destruct (keying_release _ _ _ _ _ _ _ H Hk) as (_ & km' & p' & cs & [= <- <-] & K & _).
  pose proof (f_srtp _ _ _ F) as S. unfold srtp_fact in S. cbn [end_srtp] in K. rewrite K in S. exact S.
Qed.
Print Assumptions C39_client_parameters12.

(** Server: the negotiated suite was offered by the client and is allowed, the SRTP
    profile was offered, and the ephemeral key is in a group the configuration
    allows and the client listed (or the client listed no groups). *)
Theorem C39_server_parameters12 : forall E cfg auth h c,
  reach12 E cfg auth h (Sv c) -> In OConnected (outputs h) ->
  exists ch cs, client_hello_ok (transcript12 (Sv c)) ch /\
    suite12_of (Sv c) = Some cs /\ In cs (ch_suites ch) /\
    In cs (filter (suite_compatible auth) (cfg_suites12 E cfg)) /\
    (forall km p, In (OKeying km p) (outputs h) -> exists ps, lists_srtp ch ps /\ In p ps) /\
    (suite12_is_psk cs = false -> exists group pms ms,
       In group (cfg_groups E cfg) /\
       ((exists gs, lists_groups ch gs /\ In group gs) \/ ~ In X_GROUPS (map fst (ch_exts ch))) /\
       client_share_ok E (transcript12 (Sv c)) group pms /\
       master12 (Sv c) = Some ms /\ master_ok E (transcript12 (Sv c)) pms ms cs).
Proof.
  intros E cfg auth h c H HC. facts_of H HC.
  destruct (g_hello _ _ _ F) as (ch & cs & H1 & H2 & H3 & H4 & H5 & H6 & H7 & H8 & H9 & H10 & H11); [lia|].
  exists ch, cs. rewrite HA1 in H4. rewrite HA2 in H5.
  split; [exact H1|]. split; [exact H2|]. split; [exact H3|]. split; [apply filter_In; auto|]. split.
  - intros km p Hk. destruct (keying_release _ _ _ _ _ _ _ H Hk) as (_ & km' & p' & cs' & [= <- <-] & K & _).
    exact (H10 _ K).
  - intros Hp. destruct (g_secret _ _ _ F) as (pms & S1 & (ms & cs' & M1 & M2 & M3)); [lia|].
    assert (cs' = cs) by congruence. subst cs'.
    assert (HP : s_psk c = false) by (unfold s_psk; rewrite H2; exact Hp).
    unfold s_source in S1. rewrite HP in S1. destruct S1 as (g & [G1 G2] & G3). rewrite HA1 in G1.
    exists g, pms, ms. split; [exact G1|]. split; [|auto].
    destruct (sv_groups c) as [gs|]; [left; exists gs; auto|right; auto].
Qed.
Print Assumptions C39_server_parameters12.

(** ** Keying material *)

(** Keying material is reported only after [Connected], at most once, and is the
    exporter output (RFC 5764) of the agreed secrets for the negotiated profile. *)
Theorem C39_keying12 : forall E cfg auth h s km p, reach12 E cfg auth h s ->
  In (OKeying km p) (outputs h) ->
  In OConnected (outputs h) /\ (List.length (filter is_keying (outputs h)) <= 1)%nat /\
  exists ms cs cr sr, master12 s = Some ms /\ suite12_of s = Some cs /\
    k_crandom (en_crypto (end_eng s)) = Some cr /\ k_srandom (en_crypto (end_eng s)) = Some sr /\
    prf_tls12 E (suite12_hash cs) ms (str "EXTRACTOR-dtls_srtp") (cr ++ sr) (srtp_len p) = Some km.
Proof.
  intros E cfg auth h s km p H Hk. split; [|split; [apply (connected_once _ _ _ _ _ H)|]].
  - destruct (reported_order _ _ _ _ _ H) as (pc & rest & R1 & R2 & R3).
    assert (HI : In (OKeying km p) (events_of h)) by (apply in_events; [reflexivity|exact Hk]).
    rewrite R1 in HI. apply in_app_or in HI. destruct HI as [HI|HI]; [destruct (R2 _ HI) as (x & X); discriminate|].
    destruct R3 as [->|(kl & -> & _)]; [destruct HI|].
    assert (K : In OConnected (events_of h)) by (rewrite R1; apply in_or_app; right; left; reflexivity).
    apply filter_In in K. apply K.
  - destruct (keying_release _ _ _ _ _ _ _ H Hk) as (_ & km' & p' & cs & [= <- <-] & K1 & K2 & K3).
    unfold extract_srtp12 in K3. unfold master12, suite12_of.
    destruct (k_ms (en_crypto (end_eng s))) as [ms|]; [|discriminate].
    destruct (k_crandom (en_crypto (end_eng s))) as [cr|]; [|discriminate].
    destruct (k_srandom (en_crypto (end_eng s))) as [sr|]; [|discriminate].
    exists ms, cs, cr, sr. auto.
Qed.
Print Assumptions C39_keying12.

Example C39_case : existsb is_keying (outputs (fst cl_run)) = true /\ existsb is_keying (outputs (fst sv_run)) = true.
Proof. split; vm_compute; reflexivity. Qed.

(** ** C40 *)

(** With the cookie enabled a server is connected only to a client whose hello
    carried the cookie the server computes for the client's random. *)
Theorem C40_connected_cookie12 : forall E cfg auth h c,
  reach12 E cfg auth h (Sv c) -> c_cookie cfg = true -> In OConnected (outputs h) ->
  exists ch, client_hello_ok (transcript12 (Sv c)) ch /\ cookie_ok E (sv_secret c) ch.
Proof.
  intros E cfg auth h c H Hck HC. facts_of H HC.
  destruct (g_hello _ _ _ F) as (ch & cs & H1 & H2 & H3 & H4 & H5 & H6 & H7 & H8 & H9 & H10 & H11); [lia|].
  exists ch. rewrite HA1 in H11. auto.
Qed.
Print Assumptions C40_connected_cookie12.
