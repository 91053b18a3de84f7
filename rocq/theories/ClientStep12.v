(** Every step and every call of the DTLS 1.2 client keeps [inv_c]. *)
From Coq Require Import String.
From Verif Require Import Prelude PreludeFacts CodecProofs Types Codec Codec12 Record12 Env Config Prf Context12
  Monad MonadFacts Timer Window Engine12 Client12 Server12 Engine12Frame History12 History12Facts
  EndFrame12 View12 Evidence12 ClientInv12.
Close Scope string_scope.

Section ClientStep.
Variable E : Env.

Notation inv := (inv_c E).
Definition post (st : CState12) (r : res CState12) (c' : Client12) : Prop :=
  match r with Ok st' => inv st' c' | _ => inv st c' end.

Lemma stay st c c' : c_rank st < 16 -> inv st c -> keeps_c E (c_rank st) c c' ->
  timers_c st (cl_eng c') -> (c_rank st = 3 -> cl_certs c' = cl_certs c) -> inv st c'.
Proof.
  intros Hn [[_ N] F] K T Hc. split; [split; [exact T|]|].
  { intro H. destruct (N.eq_dec (c_rank st) 3); [rewrite Hc by assumption; auto|].
    rewrite (kp_certs _ _ _ _ K) by assumption. auto. }
  assert (P : forall e, phase st e = c_rank st) by (destruct st; auto; cbn in Hn; lia).
  rewrite P in *. eapply facts_kept; eauto. lia.
Qed.

Lemma secret_up n n' c pms : n <= n' -> (n' < 10 \/ 11 <= n \/ n < 10 /\ n' < 11) ->
  secret_fact E n c pms -> secret_fact E n' c pms.
Proof.
  intros H H' S. unfold secret_fact in *.
  destruct (n <? 10) eqn:H1, (n' <? 10) eqn:H2; try lia; auto;
  destruct (n <? 11) eqn:H3, (n' <? 11) eqn:H4; try lia; auto.
Qed.

Lemma facts_up n n' c : facts_c E n c -> n <= n' ->
  (n < 1 -> 1 <= n' -> cl_random c <> None) ->
  (n < 3 -> 3 <= n' -> hello_fact E c) ->
  (n < 4 -> 4 <= n' -> c_psk c = false -> cert_fact c) ->
  ((n < 5 \/ n < 9 /\ c_psk c = true \/ n < 11 /\ 11 <= n') ->
    5 <= n' -> c_psk c = false \/ 9 <= n' ->
    exists pms, source_fact E c pms /\ secret_fact E n' c pms) ->
  (n < 9 -> 9 <= n' -> n' <= 10 -> hash_fact E c) ->
  (n < 15 -> 15 <= n' -> fin_fact E c) ->
  facts_c E n' c.
Proof.
  intros F Hn H1 H3 H4 H5 H9 H15. destruct F. constructor; auto.
  - intro H. destruct (N.lt_ge_cases n 1); auto.
  - intro H. destruct (N.lt_ge_cases n 3); auto.
  - intros H Hp. destruct (N.lt_ge_cases n 4); auto.
  - intros H Hp. destruct (N.lt_ge_cases n 5) as [|G5]; [auto|].
    destruct (c_psk c) eqn:Epsk.
    + destruct (N.lt_ge_cases n 9) as [|G9]; [apply H5; auto|].
      destruct (N.lt_ge_cases n 11) as [L|G11].
      * destruct (N.lt_ge_cases n' 11); [|apply H5; auto].
        destruct (f_secret G5) as (pms & S1 & S2); [lia|]. exists pms. split; [exact S1|].
        destruct (N.eq_dec n n') as [->|]; [exact S2|]. eapply secret_up; [| |exact S2]; lia.
      * destruct (f_secret G5) as (pms & S1 & S2); [lia|]. exists pms. split; [exact S1|].
        eapply secret_up; [| |exact S2]; lia.
    + destruct (N.lt_ge_cases n 11) as [L|G11].
      * destruct (N.lt_ge_cases n' 11); [|apply H5; auto].
        destruct (f_secret G5) as (pms & S1 & S2); [auto|]. exists pms. split; [exact S1|].
        destruct (N.eq_dec n n') as [->|]; [exact S2|]. eapply secret_up; [| |exact S2]; lia.
      * destruct (f_secret G5) as (pms & S1 & S2); [auto|]. exists pms. split; [exact S1|].
        eapply secret_up; [| |exact S2]; lia.
  - intros H H'. destruct (N.lt_ge_cases n 9); auto. apply f_hash; lia.
  - intros H. destruct (N.lt_ge_cases n 15); auto.
Qed.

Lemma advance st st' c c' : c_rank st < 16 -> c_rank st' < 16 -> c_rank st < c_rank st' ->
  inv st c -> keeps_c E (c_rank st) c c' ->
  timers_c st' (cl_eng c') ->
  (facts_c E (c_rank st) c' -> facts_c E (c_rank st') c') -> inv st' c'.
Proof.
  intros Hn Hn' Hle [[_ N] F] K T U. split; [split; [exact T|]|].
  { intro H. destruct (N.eq_dec (c_rank st) 3).
    { destruct st; try discriminate. destruct st'; cbn in *; try lia. }
    rewrite (kp_certs _ _ _ _ K) by assumption. apply N. lia. }
  assert (P : forall e, phase st e = c_rank st) by (destruct st; auto; cbn in Hn; lia).
  assert (P' : forall e, phase st' e = c_rank st') by (destruct st'; auto; cbn in Hn'; lia).
  rewrite P, P' in *. apply U. eapply facts_kept; eauto. lia.
Qed.

(** Goals [keeps_c n c c'] and [timers_c st e']. *)
Ltac kp := constructor; intros; unfold c_T, srtp_fact, c_psk in *; vrw;
  first [ exfalso; cbn [c_rank] in *; lia | reflexivity | assumption
        | apply starts_with_refl | apply starts_with_app | idtac ].
Ltac tm := cbn [timers_c] in *; unfold unfinished, stopped, running in *; vrw;
  try (intuition congruence).
Ltac st_keep := eapply stay; [reflexivity|eassumption|kp|tm|
  try (cbn [c_rank]; intro; first [discriminate | reflexivity])].
Ltac st_adv := eapply advance; [| | |eassumption|kp|tm|]; [cbn [c_rank]; lia..|].
(** From the facts of a state to those of a later one without new facts. *)
Ltac up := let F := fresh "F" in intro F; apply (facts_up _ _ _ F); cbn [c_rank]; intros; try lia.

Lemma step_send_client_hello c : inv CS_SendClientHello c ->
  wp (c_send_client_hello E) (post CS_SendClientHello) c.
Proof.
  intros I. unfold c_send_client_hello, ceng. wps; [|exact I].
  apply v_flight_begin. intros b0 e' HV. wps. apply v_create_handshake.
  unfold create_client_hello. wps. intros r e2 HV2. ecbn.
  pose proof (proj1 (proj1 I)) as T.
  destruct r; cbn [post]; [|st_keep..].
  wps. destruct (cl_cookie c); cbn [post]; st_adv; up; ecbn; congruence.
Qed.

Ltac nh := apply v_next_handshake;
  [ wps; cbn [post]; try st_keep | intros x e1 HV1; cbn [post]; st_keep
  | intros x e1 HV1; cbn [post]; st_keep
  | intros m e1 rest Hmt Hmseq Hpb Htr HV1; rewrite hs_msg_tmsg in *; cbv beta iota ].
Ltac body m := destruct (m_body m) eqn:?; try (wps; cbn [post]; solve [st_keep]).

Lemma step_await_hvr c : inv CS_AwaitHelloVerifyRequest c ->
  wp (c_await_hello_verify_request) (post CS_AwaitHelloVerifyRequest) c.
Proof.
  intros I. pose proof (proj1 (proj1 I)) as T. unfold c_await_hello_verify_request, ceng.
  wpstep. wpstep. destruct (has_complete_handshake _ _).
  - wps. cbn [post]. st_adv. up.
  - wps. nh. body m. wps; cbn [post]; [st_keep|].
    apply v_reset_client. intros e2 HV2. wps. cbn [post].
    split; [split; [tm|ecbn; intros; apply I; cbn; lia]|]. destruct I as [_ F]. destruct F. cbn [phase c_rank] in *.
    constructor; cbn [phase c_rank]; try lia; unfold srtp_fact in *; vrw; assumption.
Qed.

Lemma p_items_keep k keep : forall fuel l vs, p_items fuel k keep l = Some vs ->
  Forall (fun v => keep v = true) vs.
Proof.
  induction fuel as [|f IH]; intros [|x l] vs H; cbn [p_items] in H; try discriminate;
    try (injection H as <-; constructor).
  destruct (p_be k (x :: l)) as [[v r]|]; [|discriminate].
  destruct (p_items f k keep r) as [vs'|] eqn:Hr; [|discriminate]. injection H as <-.
  destruct (keep v) eqn:Hk; [constructor; [exact Hk|]|]; eapply IH, Hr.
Qed.
Lemma p_list_keep k keep cap l vs : p_list k keep cap l = Some vs ->
  Forall (fun v => keep v = true) vs.
Proof.
  unfold p_list. destruct (p_items _ _ _ _) eqn:H; [|discriminate]. destruct (Nat.leb _ _); [|discriminate].
  intros [= <-]. eapply p_items_keep, H.
Qed.
Lemma srtp_known_only d ps mki : p_srtp d = Some (ps, mki) -> Forall (fun p => In p srtp_known) ps.
Proof.
  unfold p_srtp. intros H. destruct (p_vec 2 d) as [[d' l]|]; [|discriminate].
  destruct (p_list 2 (fun p => memN p srtp_known) 3 d') as [l'|] eqn:Hl; [|discriminate].
  destruct (p_vec 1 l) as [[? r]|]; [|discriminate]. destruct r; [|discriminate].
  injection H as -> ->. apply p_list_keep in Hl. eapply Forall_impl; [|exact Hl].
  intros a Ha. apply memN_In, Ha.
Qed.

(** Reading the extensions only changes the SRTP profile. *)
Lemma sh12_extensions_spec es : forall b (Q : res bool -> Client12 -> Prop) c,
  srtp_fact c ->
  (forall r c', (exists p, c' = set_cl_srtp p c) -> srtp_fact c' ->
     (forall ems, r = Ok ems -> ems = true -> b = true \/ In X_EMS (map fst es)) -> Q r c') ->
  wp (sh12_extensions b es) Q c.
Proof.
  induction es as [|[t d] es IH]; intros b Q c S H; cbn [sh12_extensions].
  - wps. apply H; [exists (cl_srtp c); destruct c; reflexivity|exact S|]. intros ems X X'. left. congruence.
  - assert (K : forall c1, srtp_fact c1 -> (exists p, c1 = set_cl_srtp p c) ->
      wp (sh12_extensions (b || (t =? X_EMS)) es) Q c1).
    { intros c1 S1 [p ->]. apply IH; [exact S1|]. intros r c' [p' ->] S' X. apply H.
      - exists p'. reflexivity.
      - exact S'.
      - intros ems Hr He. destruct (X ems Hr He) as [X'|X'].
        + apply orb_true_iff in X'. destruct X' as [->|X']; [auto|]. right. left. cbn. lia.
        + right. right. exact X'. }
    apply wp_bind. destruct (t =? X_SRTP); [|wps; apply K; [exact S|exists (cl_srtp c); destruct c; reflexivity]].
    destruct (p_srtp d) as [[[|p ps] mki]|] eqn:Hp; wps.
    + apply K; [exact S|exists (cl_srtp c); destruct c; reflexivity].
    + apply K; [|exists (Some p); reflexivity]. unfold srtp_fact. ecbn. apply srtp_known_only in Hp. inversion Hp; assumption.
    + apply H; [exists (cl_srtp c); destruct c; reflexivity|exact S|discriminate].
Qed.

Lemma p_body_sh s raw h rest : p_body12 MT_ServerHello s raw = Some (B_ServerHello h, rest) ->
  p_sh12 raw = Some (h, rest).
Proof.
  unfold p_body12. cbn [N.eqb MT_ServerHello MT_HelloRequest MT_ClientHello MT_HelloVerifyRequest Pos.eqb].
  destruct (p_sh12 raw) as [[]|]; cbn; [|discriminate]. intros [= -> ->]. reflexivity.
Qed.
Lemma step_await_server_hello c : inv CS_AwaitServerHello c ->
  wp (c_await_server_hello E) (post CS_AwaitServerHello) c.
Proof.
  intros I. pose proof (proj1 (proj1 I)) as T. unfold c_await_server_hello, ceng.
  wps. nh. body m. apply p_body_sh in Hpb.
  wpstep. wpstep. ecbn.
  destruct (sh_version h =? V_DTLS12) eqn:H1; cbn [negb]; [|wps; cbn [post]; st_keep].
  destruct (sh_comp h =? 0) eqn:H2; cbn [negb]; [|wps; cbn [post]; st_keep].
  destruct (memN (sh_suite h) suites12_supported) eqn:H3; cbn [negb]; [|wps; cbn [post]; st_keep].
  destruct (suite_compatible _ _) eqn:H4; cbn [negb]; [|wps; cbn [post]; st_keep].
  destruct (suite_allowed _ _ _) eqn:H5; cbn [negb]; [|wps; cbn [post]; st_keep].
  wps. apply v_set_suite; [intros; cbn [post]; st_keep|]. intros i e2 Hi HV2. wps; [|cbn [post]; st_keep].
  assert (S : srtp_fact c) by apply (f_srtp _ _ _ (proj2 I)).
  apply sh12_extensions_spec; [exact S|]. intros r c' [p ->] S' Hr. destruct r as [ems|x|x]; cbn [post]; [|st_keep..].
  wps; cbn [post]; [st_keep|].
  assert (Hh : hello_fact E (set_cl_srtp p (set_cl_srandom (Some (sh_random h))
     (set_cl_sid (Some (sh_sid h)) (set_cl_eng e2 (set_cl_eng e1 c)))))).
  { exists h, l. unfold c_T. unfold suite_allowed in H5. ecbn_in H5. ecbn_in H4.
    rewrite (vs_cfg _ _ HV1) in H5. rewrite (vs_crypto _ _ HV1) in H4. vrw.
    ecbn_in H5. ecbn_in H4.
    repeat split; try assumption.
    - eexists _, _, _. split; [apply has_msg_last|]. repeat split; try eassumption; lia.
    - apply memN_In, H5.
    - apply memN_In, H3.
    - destruct (Hr _ eq_refl) as [|X]; [destruct ems; [reflexivity|discriminate]|discriminate|exact X]. }
  destruct (suite12_is_psk (sh_suite h)) eqn:Hp; st_adv; up; try exact Hh.
  exfalso. match goal with H : c_psk _ = false |- _ => revert H end. unfold c_psk. vrw. congruence.
Qed.

Lemma p_body_cert s raw cs rest : p_body12 MT_Certificate s raw = Some (B_Certificate cs, rest) ->
  p_cert12 raw = Some (cs, rest).
Proof.
  unfold p_body12. cbn [N.eqb MT_Certificate MT_ServerHello MT_HelloRequest MT_ClientHello MT_HelloVerifyRequest Pos.eqb].
  destruct (p_cert12 raw) as [[]|]; cbn; [|discriminate]. intros [= -> ->]. reflexivity.
Qed.

Lemma p_body_ske s raw k rest : p_body12 MT_ServerKeyExchange (Some s) raw = Some (B_ServerKeyExchange k, rest) ->
  p_ske12 (suite12_kx s) raw = Some (k, rest).
Proof.
  unfold p_body12. cbn [N.eqb MT_ServerKeyExchange MT_Certificate MT_ServerHello MT_HelloRequest MT_ClientHello MT_HelloVerifyRequest Pos.eqb].
  destruct (p_ske12 _ raw) as [[]|]; cbn; [|discriminate]. intros [= -> ->]. reflexivity.
Qed.
Lemma p_body_fin s raw vd rest : p_body12 MT_Finished s raw = Some (B_Finished vd, rest) ->
  raw = vd ++ rest /\ length vd = 12%nat.
Proof.
  unfold p_body12. cbn [N.eqb MT_Finished MT_ServerKeyExchange MT_CertificateRequest MT_ServerHelloDone MT_CertificateVerify MT_ClientKeyExchange MT_NewSessionTicket MT_Certificate MT_ServerHello MT_HelloRequest MT_ClientHello MT_HelloVerifyRequest Pos.eqb].
  destruct s; [|discriminate]. destruct (take 12 raw) as [[]|] eqn:H; [|discriminate].
  intros [= -> ->]. apply take_some in H. tauto.
Qed.

Lemma step_await_certificate c : inv CS_AwaitCertificate c ->
  wp c_await_certificate (post CS_AwaitCertificate) c.
Proof.
  intros I. pose proof (proj1 (proj1 I)) as T. unfold c_await_certificate, ceng.
  wps. nh. body m. apply p_body_cert in Hpb. destruct certs as [|leaf more]; wps; cbn [post]; [st_keep|].
  assert (N : cl_certs c = []) by (apply I; cbn; lia).
  st_adv. up.
  split; unfold c_T; vrw; rewrite N; [discriminate|].
  eexists _, _, _. split; [apply has_msg_last|]. rewrite Hpb. reflexivity.
Qed.

(** Completing the key exchange in the client. *)
Lemma process_ecdh_spec group tick peer k b k' : process_ecdh_params E group tick peer k = (b, k') ->
  k_auth k' = k_auth k /\
  (b = true -> exists sk pk pms, In group (provider_groups E) /\ e_kx_start E group tick = Some (sk, pk) /\
     e_kx_complete E group sk peer = Some pms /\ k_pms k' = Some pms).
Proof.
  unfold process_ecdh_params. destruct (memN group (provider_groups E)) eqn:Hg.
  2: { intros [= <- <-]. split; [reflexivity|discriminate]. }
  destruct (e_kx_start E group tick) as [[sk pk]|] eqn:Hs.
  2: { intros [= <- <-]. split; [reflexivity|discriminate]. }
  unfold maybe_init_kx. ecbn. intros H.
  assert (K : forall k2, k_kx k2 = Some (group, sk, pk) -> k_auth k2 = k_auth k ->
    compute_shared_secret E peer k2 = (b, k') -> k_auth k' = k_auth k /\
    (b = true -> exists sk0 pk0 pms, In group (provider_groups E) /\
      Some (sk, pk) = Some (sk0, pk0) /\
      e_kx_complete E group sk0 peer = Some pms /\ k_pms k' = Some pms)).
  { intros k2 H2 Ha Hc. unfold compute_shared_secret in Hc. rewrite H2 in Hc.
    destruct (e_kx_complete E group sk peer) as [pms|] eqn:Hk; injection Hc as <- <-; ecbn;
      (split; [exact Ha|]); [|discriminate].
    intros _. exists sk, pk, pms. repeat split; auto. apply memN_In, Hg. }
  destruct (k_kx_pub k); apply K in H; auto.
Qed.

Lemma kx_not_psk cs : In cs suites12_supported -> suite12_is_psk cs = false -> suite12_kx cs = KX_ECDHE /\
  suite12_sig cs = Some SIG_ECDSA.
Proof. intros [<-|[<-|[<-|[<-|[]]]]] H; cbv in H |- *; try discriminate; auto. Qed.
Lemma kx_psk cs : suite12_is_psk cs = true -> suite12_kx cs = KX_PSK.
Proof. unfold suite12_is_psk. intros H. apply N.eqb_eq in H. subst. reflexivity. Qed.

Lemma hello_suite n c : facts_c E n c -> 3 <= n -> exists cs, en_suite (cl_eng c) = Some cs /\
  In cs suites12_supported.
Proof.
  intros F H. destruct (f_hello _ _ _ F H) as (h & es & _ & H1 & _ & _ & H2 & _). eauto.
Qed.

Lemma step_ske_ecdhe c : inv CS_AwaitServerKeyExchange c -> c_psk c = false ->
  wp (c_await_server_key_exchange_ecdhe E) (post CS_AwaitServerKeyExchange) c.
Proof.
  intros I Hpsk. pose proof (proj1 (proj1 I)) as T. pose proof (proj2 I) as F. cbn [phase c_rank] in F.
  destruct (hello_suite _ _ F) as (cs & Hcs & Hsup); [lia|].
  assert (Hk : suite12_is_psk cs = false) by (unfold c_psk in Hpsk; rewrite Hcs in Hpsk; exact Hpsk).
  destruct (kx_not_psk _ Hsup Hk) as [Hkx Hsig].
  unfold c_await_server_key_exchange_ecdhe, ceng.
  wps. nh. body m. rewrite Hcs in Hpb. apply p_body_ske in Hpb. rewrite Hkx in Hpb.
  destruct s as [curve group pub [[alg sig]|]|hint]; try (wps; cbn [post]; st_keep).
  wpstep. wpstep. ecbn.
  destruct (cl_random c) as [cr|] eqn:Hcr; [|wps; cbn [post]; st_keep].
  destruct (cl_srandom c) as [sr|] eqn:Hsr; [|wps; cbn [post]; st_keep].
  rewrite (vs_suite _ _ HV1). ecbn. rewrite Hcs. apply wp_bind, wp_of_opt. rewrite Hsig.
  destruct (memN alg sigalgs12_supported) eqn:Hal; cbn [negb]; [|wps; cbn [post]; st_keep].
  destruct (sigalg_sig alg =? SIG_ECDSA) eqn:Hsg; cbn [negb]; [|wps; cbn [post]; st_keep].
  destruct (cl_certs c) as [|leaf more] eqn:Hcert; [wps; cbn [post]; st_keep|].
  destruct (e_verify E leaf _ sig _ _) eqn:Hv; [|wps; cbn [post]; st_keep].
  wps. eapply wp_mono; [apply (wp_pres Vsame), v_draw|]. cbv beta. intros [tick|x|x] e2 HV2; ecbn_in HV2;
    [|cbn [post]; st_keep..].
  wps. apply v_crypto_op. intros b k e3 Hb HV3. ecbn_in HV3. ecbn_in Hb.
  apply process_ecdh_spec in Hb. destruct Hb as [Hauth Hb].
  rewrite (vs_crypto _ _ HV2), (vs_crypto _ _ HV1) in Hauth. ecbn_in Hauth.
  destruct b; [|cbn [post]; st_keep]. destruct (Hb eq_refl) as (sk & pk & pms & Hg & Hst & Hco & Hpm).
  wps. cbn [post]. st_adv. up.
  exists pms. split.
  - unfold source_fact, c_psk, c_T. vrw. rewrite Hcs, Hk. exists leaf, more, cr, sr, cs.
    repeat (split; [first [reflexivity|assumption]|]).
    eexists _, _, _, curve, group, pub, alg, sig, tick, sk, pk. split; [apply has_msg_last|].
    split; [exact Hpb|]. split; [apply memN_In, Hal|]. split; [rewrite Hsig; f_equal; lia|].
    repeat (split; [first [exact Hv|assumption]|]). assumption.
  - unfold secret_fact, pms_held. cbn [N.ltb N.compare Pos.compare Pos.compare_cont]. vrw. exact Hpm.
Qed.

Lemma step_ske_psk c : inv CS_AwaitServerKeyExchange c -> c_psk c = true ->
  wp c_await_server_key_exchange_psk (post CS_AwaitServerKeyExchange) c.
Proof.
  intros I Hpsk. pose proof (proj1 (proj1 I)) as T. unfold c_await_server_key_exchange_psk, ceng.
  wpstep. wpstep. destruct (has_complete_handshake _ _).
  - wps. cbn [post]. st_adv. up. exfalso. intuition (congruence || lia).
  - wps. nh. body m. destruct s; wps; cbn [post]; [st_keep|]. st_adv. up.
    exfalso. match goal with H : c_psk ?x = false \/ _ |- _ =>
      assert (c_psk x = true) by (unfold c_psk in *; vrw; exact Hpsk) end. intuition (congruence || lia).
Qed.

Lemma step_ske c : inv CS_AwaitServerKeyExchange c ->
  wp (c_await_server_key_exchange E) (post CS_AwaitServerKeyExchange) c.
Proof.
  intros I. unfold c_await_server_key_exchange. wpstep. wpstep. apply wp_bind.
  destruct (en_suite (cl_eng c)) as [cs|] eqn:Hcs; [|exact I]. apply wp_of_opt.
  destruct (suite12_is_psk cs) eqn:Hp; [apply step_ske_psk|apply step_ske_ecdhe]; auto;
    unfold c_psk; rewrite Hcs; exact Hp.
Qed.

Lemma step_await_cr c : inv CS_AwaitCertificateRequest c ->
  wp c_await_certificate_request (post CS_AwaitCertificateRequest) c.
Proof.
  intros I. pose proof (proj1 (proj1 I)) as T. unfold c_await_certificate_request, ceng.
  wpstep. wpstep. destruct (has_complete_handshake _ _).
  - wps. cbn [post]. st_adv. up. intuition (congruence || lia).
  - wps. nh. body m. wps; cbn [post]; try st_keep. st_adv. up. intuition (congruence || lia).
Qed.

Lemma step_await_shd c : inv CS_AwaitServerHelloDone c ->
  wp c_await_server_hello_done (post CS_AwaitServerHelloDone) c.
Proof.
  intros I. pose proof (proj1 (proj1 I)) as T. unfold c_await_server_hello_done, ceng.
  wps. nh. body m. wps; cbn [post]; try st_keep.
  2: destruct (cl_cv _).
  all: st_adv; up; intuition (congruence || lia).
Qed.

Lemma step_send_certificate c : inv CS_SendCertificate c ->
  wp (c_send_certificate E) (post CS_SendCertificate) c.
Proof.
  intros I. pose proof (proj1 (proj1 I)) as T. unfold c_send_certificate, ceng.
  wps. apply v_flight_begin. intros b0 e1 HV1. wps. apply v_create_handshake.
  unfold create_certificate12. wps; [|cbn [post]; st_keep].
  intros r e2 HV2. destruct r; cbn [post]; [|st_keep..]. wps. cbn [post].
  st_adv. up. intuition (congruence || lia).
Qed.

(** What the client puts into ClientKeyExchange, and the secret it keeps. *)
Lemma create_cke_spec (Q : res bytes -> Eng12 -> Prop) e :
  (forall cs, en_suite e = Some cs -> In cs suites12_supported) ->
  (forall r e', (exists k, e' = set_en_crypto k e /\ k_auth k = k_auth (en_crypto e) /\
      (match en_suite e with Some cs => suite12_is_psk cs = false | None => True end ->
       k_pms k = k_pms (en_crypto e))) ->
      (forall body cs, r = Ok body -> en_suite e = Some cs -> suite12_is_psk cs = true ->
        exists identity resolve psk, cfg_identity (en_cfg e) = Some identity /\
        cfg_resolver (en_cfg e) = Some resolve /\ resolve identity = Some psk /\
        k_pms (en_crypto e') = Some (psk_premaster psk)) -> Q r e') ->
  wp create_client_key_exchange Q e.
Proof.
  intros Hsup H. assert (H0 : forall x, (forall b, x <> Ok b) -> Q x e).
  { intros x Hx. apply H; [exists (en_crypto e); destruct e; auto|]. intros body ? ->. destruct (Hx body eq_refl). }
  unfold create_client_key_exchange. wpstep. wpstep. destruct (en_suite e) as [cs|] eqn:Hcs; [|apply wp_fail, H0; discriminate].
  destruct (suite12_kx cs) eqn:Hkx.
  - assert (Hp : suite12_is_psk cs = false).
    { destruct (suite12_is_psk cs) eqn:X; [|reflexivity]. apply kx_psk in X. congruence. }
    destruct (k_kx_group (en_crypto e)); [|apply wp_panic, H0; discriminate].
    unfold maybe_init_kx.
    destruct (k_kx_pub (en_crypto e)); [|destruct (k_kx (en_crypto e)) as [[[g sk] pk]|]]; wps;
      try (apply H0; discriminate); (apply H; [eexists; split; [reflexivity|]; split; reflexivity|]); congruence.
  - assert (Hp : suite12_is_psk cs = true).
    { destruct (suite12_is_psk cs) eqn:X; [reflexivity|].
      destruct (kx_not_psk cs (Hsup _ eq_refl) X). congruence. }
    wps; try (apply H0; discriminate).
    unfold crypto_op, wp. ecbn. unfold compute_psk_pms. ecbn.
    cbn [fst snd]. apply H.
    + eexists. split; [reflexivity|]. split; [reflexivity|]. congruence.
    + intros body cs0 _ [= <-] _. eexists _, _, _. split; [reflexivity|]. split; [reflexivity|]. split; [eassumption|]. reflexivity.
  - apply wp_fail, H0. discriminate.
Qed.

Lemma step_send_cke c : inv CS_SendClientKeyExchange c ->
  wp (c_send_client_key_exchange E) (post CS_SendClientKeyExchange) c.
Proof.
  intros I. pose proof (proj1 (proj1 I)) as T. pose proof (proj2 I) as F. cbn [phase c_rank] in F.
  destruct (hello_suite _ _ F) as (cs & Hcs & Hsup); [lia|].
  unfold c_send_client_key_exchange, ceng. wpstep. wpstep. apply wp_bind.
  assert (K : forall e0, Vsame (cl_eng c) e0 \/
    (exists b, Vsame (set_en_bo b (set_en_flight Unarmed (cl_eng c))) e0) ->
    wp (zoom cl_eng set_cl_eng (create_handshake E MT_ClientKeyExchange create_client_key_exchange);;;
        (let! c0 := get in
         let! cs0 := of_opt EInvalidState (en_suite (cl_eng c0)) in
         modify (set_cl_sh (Some (transcript_hash E (cl_eng c0) (suite12_hash cs0))));;;
         ret (if cl_cv c0 then CS_SendCertificateVerify else CS_SendChangeCipherSpec)))
       (post CS_SendClientKeyExchange) (set_cl_eng e0 c)).
  { intros e0 HV0.
    assert (E0 : en_cfg e0 = en_cfg (cl_eng c) /\ en_suite e0 = en_suite (cl_eng c) /\
      en_crypto e0 = en_crypto (cl_eng c) /\ en_client e0 = en_client (cl_eng c) /\
      en_transcript e0 = en_transcript (cl_eng c) /\ unfinished e0).
    { destruct HV0 as [HV0|[b HV0]]; repeat split; vrw; try reflexivity; try apply T; discriminate. }
    clear HV0. destruct E0 as (E1 & E2 & E3 & E4 & E5 & T0).
    wps. ecbn. apply v_create_handshake. apply create_cke_spec.
    { rewrite E2, Hcs. intros ? [= <-]. exact Hsup. }
    intros r e1 (k & -> & Ha & Hpm) Hpsk. rewrite E3 in Ha, Hpm. rewrite E2, Hcs in Hpm, Hpsk. ecbn_in Hpsk.
    rewrite E1 in Hpsk.
    assert (Keep : forall e2 sh, Vsame (set_en_crypto k e0) e2 \/
       (exists x y, Vsame (set_en_next_hs x (set_en_transcript (en_transcript e0 ++ y) (set_en_crypto k e0))) e2) ->
       keeps_c E 8 c (set_cl_sh sh (set_cl_eng e2 c)) /\ unfinished e2).
    { intros e2 sh HV2. assert (E' : en_cfg e2 = en_cfg (cl_eng c) /\ en_suite e2 = en_suite (cl_eng c) /\
        en_crypto e2 = k /\ en_client e2 = en_client (cl_eng c) /\
        starts_with (en_transcript e2) (en_transcript (cl_eng c)) /\ unfinished e2).
      { destruct HV2 as [HV2|(x & y & HV2)]; repeat split; vrw; rewrite ?E1, ?E2, ?E4, ?E5;
          auto using starts_with_refl, starts_with_app; apply T0. }
      destruct E' as (F1 & F2 & F3 & F4 & F5 & F6). split; [|exact F6].
      constructor; intros; unfold c_T, srtp_fact, c_psk in *; ecbn; rewrite ?F1, ?F2, ?F3, ?F4; auto; try lia.
      apply Hpm. match goal with H : _ = false |- _ => rewrite Hcs in H; exact H end. }
    assert (Keep' : forall e2, Vsame (set_en_crypto k e0) e2 \/
       (exists x y, Vsame (set_en_next_hs x (set_en_transcript (en_transcript e0 ++ y) (set_en_crypto k e0))) e2) ->
       inv CS_SendClientKeyExchange (set_cl_eng e2 (set_cl_eng e0 c))).
    { intros e2 HV2. destruct (Keep e2 (cl_sh c) HV2) as [K1 K2].
      replace (set_cl_sh (cl_sh c) (set_cl_eng e2 c)) with (set_cl_eng e2 (set_cl_eng e0 c)) in K1
        by (destruct c; reflexivity).
      eapply stay; [reflexivity|exact I|exact K1|exact K2|discriminate]. }
    destruct r as [body|x|x]; [|cbn [post]; apply Keep'; left; apply Vsame_refl..].
    intros r e2 HV2. rewrite own_msg_tmsg in HV2.
    destruct r; [|cbn [post]; apply Keep'; right; eauto..].
    wpstep. wpstep. ecbn. assert (Hcs2 : en_suite e2 = Some cs) by (vrw; rewrite E2; exact Hcs).
    rewrite Hcs2. apply wp_bind, wp_of_opt. wps.
    assert (HV2' : exists x y, Vsame (set_en_next_hs x (set_en_transcript (en_transcript e0 ++ y) (set_en_crypto k e0))) e2) by eauto.
    destruct (Keep e2 (Some (transcript_hash E e2 (suite12_hash cs))) (or_intror HV2')) as [K1 K2].
    change (set_cl_eng e2 (set_cl_eng e0 c)) with (set_cl_eng e2 c).
    assert (Fh : hash_fact E (set_cl_sh (Some (transcript_hash E e2 (suite12_hash cs))) (set_cl_eng e2 c))).
    { exists (en_transcript (cl_eng c)), body, (en_next_hs e0), cs. unfold c_T. ecbn. split; [exact Hcs2|].
      unfold transcript_hash. vrw. rewrite E5. split; [apply starts_with_refl|reflexivity]. }
    assert (U : forall n', 9 <= n' -> n' <= 10 ->
      facts_c E 8 (set_cl_sh (Some (transcript_hash E e2 (suite12_hash cs))) (set_cl_eng e2 c)) ->
      facts_c E n' (set_cl_sh (Some (transcript_hash E e2 (suite12_hash cs))) (set_cl_eng e2 c))).
    { intros n' L1 L2 F8. apply (facts_up _ _ _ F8); try lia; intros; auto.
      destruct (suite12_is_psk cs) eqn:Hp.
      - destruct (Hpsk _ _ eq_refl eq_refl Hp) as (id & res & psk & P1 & P2 & P3 & P4).
        exists (psk_premaster psk). split.
        + unfold source_fact, c_psk. ecbn. rewrite Hcs2, Hp. exists id, res, psk. vrw. rewrite E1. auto.
        + assert (X : pms_held (set_cl_sh (Some (transcript_hash E e2 (suite12_hash cs))) (set_cl_eng e2 c)) (psk_premaster psk)).
          { unfold pms_held. vrw. exact P4. }
          unfold secret_fact. destruct (n' <? 10); [exact X|]. destruct (n' <? 11) eqn:?; [left; exact X|lia].
      - exfalso. unfold c_psk in *. ecbn_in H. rewrite Hcs2, Hp in H. intuition (congruence || lia). }
    ecbn. destruct (cl_cv c); cbn [post];
      (eapply advance; [| | |exact I|exact K1|exact K2|]; cbn [c_rank]; [lia..|]; apply U; lia). }
  apply wp_when; intros Hcv.
  - wps. apply v_flight_begin. intros b e0 HV0. apply K. right. eauto.
  - replace c with (set_cl_eng (cl_eng c) c) at 2 by (destruct c; reflexivity). apply K. left. apply Vsame_refl.
Qed.

Lemma step_send_cv c : inv CS_SendCertificateVerify c ->
  wp (c_send_certificate_verify E) (post CS_SendCertificateVerify) c.
Proof.
  intros I. pose proof (proj1 (proj1 I)) as T. unfold c_send_certificate_verify, ceng.
  wps. apply v_create_handshake. unfold create_certificate_verify. wps; try (cbn [post]; st_keep).
  eapply wp_mono; [apply (wp_pres Vsame), v_draw|]. cbv beta. intros [tick|x|x] e1 HV1;
    [|cbn [post]; st_keep..]. wps; [|cbn [post]; st_keep].
  intros r e2 HV2. destruct r; cbn [post]; [|st_keep..]. wps. cbn [post].
  st_adv. up.
Qed.

Lemma derive_keys_keeps cs cr sr k b k' : derive_keys E cs cr sr k = (b, k') ->
  k_ms k' = k_ms k /\ k_pms k' = k_pms k /\ k_auth k' = k_auth k.
Proof.
  unfold derive_keys. destruct (k_ms k) eqn:Hms; [|intros [= <- <-]; auto].
  destruct (find12 E cs); [|intros [= <- <-]; auto].
  destruct (prf_tls12 _ _ _ _ _ _); [|intros [= <- <-]; auto].
  destruct (e_mkcipher E cs _); [|intros [= <- <-]; auto].
  destruct (e_mkcipher E cs _); intros [= <- <-]; auto.
Qed.

Lemma step_send_ccs c : inv CS_SendChangeCipherSpec c ->
  wp (c_send_change_cipher_spec E) (post CS_SendChangeCipherSpec) c.
Proof.
  intros I. pose proof (proj1 (proj1 I)) as T. pose proof (proj2 I) as F. cbn [phase c_rank] in F.
  destruct (f_hash _ _ _ F) as (before & cke & seq & cs & Hcs & Hpre & Hsh); [lia..|].
  unfold c_send_change_cipher_spec, c_derive_keys, ceng. apply wp_bind. wpstep. wpstep.
  rewrite Hcs. apply wp_bind, wp_of_opt. apply wp_bind, wp_of_opt.
  destruct (cl_srandom c) as [sr|]; [|exact I].
  destruct (cl_random c) as [cr|] eqn:Hcr; [|wps; exact I].
  rewrite Hsh. apply wp_bind, wp_of_opt. wps.
  apply v_crypto_op. intros b k e1 Hb HV1.
  (* the state after the master secret was derived *)
  destruct (derive_ems E _ _ _) as [k1|] eqn:Hd; injection Hb as <- <-.
  2: { cbn [post]. st_keep.
       match goal with H : secret_fact E 10 c ?p |- _ => unfold secret_fact, ms_fact, pms_held, c_T in * end.
       cbn [N.ltb N.compare Pos.compare Pos.compare_cont] in *. vrw. assumption. }
  unfold derive_ems in Hd. destruct (k_pms (en_crypto (cl_eng c))) as [pms|] eqn:Hpms; [|discriminate].
  destruct (prf_tls12 E _ pms _ _ 48) as [ms|] eqn:Hprf; [|discriminate]. injection Hd as <-.
  wps. apply v_crypto_op. intros b k e2 Hb HV2. ecbn_in Hb.
  apply derive_keys_keeps in Hb. rewrite (vs_crypto _ _ HV1) in Hb. ecbn_in Hb. destruct Hb as (Hm & Hp & Ha).
  assert (Hms : forall c' p, k_ms (en_crypto (cl_eng c')) = Some ms -> en_suite (cl_eng c') = Some cs ->
     c_T c' = c_T c -> secret_fact E 10 c p -> ms_fact E c' p).
  { intros c' p H1 H2 H3 H4. exists ms, cs. split; [exact H1|]. split; [exact H2|]. rewrite H3.
    exists before, cke, seq. split; [exact Hpre|].
    cbn [secret_fact N.ltb N.compare Pos.compare Pos.compare_cont] in H4. unfold pms_held in H4.
    destruct H4 as [H4|[H4 _]]; congruence. }
  assert (K : forall e3, Vsame e2 e3 -> keeps_c E 10 c (set_cl_eng e3 (set_cl_eng e2 (set_cl_eng e1 c)))).
  { intros e3 HV3. kp.
    right. split; [vrw; exact Hp|]. apply Hms; [vrw; exact Hm|vrw; exact Hcs|unfold c_T; vrw; reflexivity|assumption]. }
  assert (K0 : keeps_c E 10 c (set_cl_eng e2 (set_cl_eng e1 c))) by apply (K e2), Vsame_refl.
  destruct b; cbn [post].
  2: { eapply stay; [reflexivity|exact I|exact K0|tm|discriminate]. }
  wps. eapply wp_mono; [apply (wp_pres Vsame), v_create_record|]. cbv beta. intros r e3 HV3. ecbn_in HV3.
  destruct r; cbn [post]; [|eapply stay; [reflexivity|exact I|apply K, HV3|tm|discriminate]..].
  wps. cbn [post]. eapply advance; [| | |exact I|apply K, HV3|tm|]; [cbn [c_rank]; lia..|].
  up. match goal with F : facts_c E _ _ |- _ => rename F into F10 end.
  destruct (f_secret _ _ _ F) as (p & S1 & S2); [lia|right; lia|].
  exists p. split.
  - destruct (f_secret _ _ _ F10) as (p' & S1' & S2'); [cbn;lia|right; cbn; lia|].
    clear S2'. revert S1. unfold source_fact, c_psk, c_T. vrw. exact (fun H => H).
  - cbn [secret_fact N.ltb N.compare Pos.compare Pos.compare_cont].
    apply Hms; [vrw; exact Hm|vrw; exact Hcs|unfold c_T; vrw; reflexivity|exact S2].
Qed.

Lemma gvd_spec (b : bool) (Q : res bytes -> Eng12 -> Prop) e :
  (forall x, Q (Err x) e) ->
  (forall vd cs ms, en_suite e = Some cs -> k_ms (en_crypto e) = Some ms -> List.length vd = 12%nat ->
     prf_tls12 E (suite12_hash cs) ms (str (if b then "client finished" else "server finished"))
      (e_hash E (suite12_hash cs) (en_transcript e)) 12 = Some vd -> Q (Ok vd) e) ->
  wp (generate_verify_data E b) Q e.
Proof.
  intros H1 H2. unfold generate_verify_data. wpstep. wpstep.
  destruct (en_suite e) as [cs|]; [|wps; auto]. unfold verify_data12.
  destruct (k_ms (en_crypto e)) as [ms|]; [|wps; auto].
  destruct (prf_tls12 _ _ _ _ _ _) as [vd|] eqn:Hp; [|wps; auto].
  destruct (Nat.eqb (length vd) 12) eqn:Hl; wps; auto. eapply H2; eauto. apply Nat.eqb_eq, Hl.
Qed.

Lemma step_send_finished c : inv CS_SendFinished c ->
  wp (c_send_finished E) (post CS_SendFinished) c.
Proof.
  intros I. pose proof (proj1 (proj1 I)) as T. unfold c_send_finished, ceng.
  wps. apply v_create_handshake. apply gvd_spec; [intros; cbn [post]; st_keep|].
  intros vd cs ms _ _ _ _ r e2 HV2. destruct r; cbn [post]; [|st_keep..]. wps. cbn [post].
  st_adv. up.
Qed.

Lemma step_await_ccs c : inv CS_AwaitChangeCipherSpec c ->
  wp (c_await_change_cipher_spec E) (post CS_AwaitChangeCipherSpec) c.
Proof.
  intros I. pose proof (proj1 (proj1 I)) as T. unfold c_await_change_cipher_spec, ceng.
  wps. eapply wp_mono; [apply (wp_pres Vsame), v_next_record|]. cbv beta. intros [o|x|x] e1 HV1;
    [|cbn [post]; st_keep..]. destruct o; wps; [|cbn [post]; st_keep].
  eapply wp_mono; [apply (wp_pres Vsame), v_drop_ccs|]. cbv beta. intros [o|x|x] e2 HV2; ecbn_in HV2;
    [|cbn [post]; st_keep..]. wps. apply v_enable_peer. intros r3 e3 HV3. ecbn_in HV3.
  destruct r3; cbn [post]; [|st_keep..]. wps. cbn [post]. st_adv. up.
Qed.

Lemma step_await_nst c : inv CS_AwaitNewSessionTicket c ->
  wp c_await_new_session_ticket (post CS_AwaitNewSessionTicket) c.
Proof.
  intros I. pose proof (proj1 (proj1 I)) as T. unfold c_await_new_session_ticket, ceng.
  wpstep. wpstep. destruct (has_complete_handshake _ _).
  - wps. cbn [post]. st_adv. up.
  - wps. nh. body m. wps; cbn [post]. st_adv. up.
Qed.

Lemma step_await_finished c : inv CS_AwaitFinished c ->
  wp (c_await_finished E) (post CS_AwaitFinished) c.
Proof.
  intros I. pose proof (proj1 (proj1 I)) as T. unfold c_await_finished, ceng.
  wps. apply gvd_spec; [intros; cbn [post]; st_keep|].
  intros expected cs ms Hcs Hms Hlen Hvd. ecbn. wps. ecbn.
  assert (I1 : inv CS_AwaitFinished (set_cl_eng (cl_eng c) c)) by st_keep.
  nh. body m. apply p_body_fin in Hpb. destruct Hpb as [Hraw Hlv].
  destruct (beqb vd expected) eqn:Hbeq; cbn [negb]; [|wps; cbn [post]; st_keep].
  apply beqb_eq in Hbeq. subst vd. wps. apply v_flight_stop. intros e2 HV2. ecbn_in HV2.
  wpstep. wpstep. wpstep. wpstep. wpstep. ecbn.
  assert (K : forall evs (Q := post CS_AwaitFinished), wp (zoom cl_eng set_cl_eng release_application_data;;; ret CS_AwaitApplicationData) Q
     (set_cl_events evs (set_cl_eng e2 (set_cl_eng e1 (set_cl_eng (cl_eng c) c))))).
  { intros evs Q. unfold Q. wps. ecbn. apply v_release. intros e3 HV3. wps. cbn [post]. st_adv. up.
    exists ms, cs. unfold c_T. vrw. split; [exact Hms|]. split; [exact Hcs|].
    exists (en_transcript (cl_eng c)), expected, rest. rewrite <- Hraw.
    split; [apply has_msg_last|]. split; [exact Hlen|]. exact Hvd. }
  destruct (cl_srtp c); [|wps; apply K].
  assert (Hcs2 : en_suite e2 = Some cs) by (vrw; exact Hcs). rewrite Hcs2.
  destruct (extract_srtp12 _ _ _ _); wpstep; wpstep; apply K.
Qed.

Lemma step_await_app c : inv CS_AwaitApplicationData c ->
  wp (c_await_application_data E) (post CS_AwaitApplicationData) c.
Proof.
  intros I. pose proof (proj1 (proj1 I)) as T. unfold c_await_application_data, ceng.
  wpstep. wpstep. destruct (en_cn_recv (cl_eng c)).
  - wps. eapply wp_mono; [apply (wp_pres Vsame), v_discard|]. cbv beta. intros [o|x|x] e1 HV1; ecbn_in HV1;
      [|cbn [post]; st_keep..]. wps. eapply wp_mono; [apply (wp_pres Vsame), v_create_record|].
    cbv beta. intros [o'|x|x] e2 HV2; ecbn_in HV2; [|cbn [post]; st_keep..]. wps. cbn [post].
    assert (I2 : inv CS_AwaitApplicationData (set_cl_eng e2 (set_cl_eng e1 c))) by st_keep.
    destruct I2 as [[T2 N2] F2]. destruct T2 as [T2 R2]. split; [split; [exact T2|cbn; lia]|].
    cbn [phase c_rank] in *. rewrite R2. apply (facts_up _ _ _ F2); lia.
  - wps.
    eapply wp_mono; [apply (wp_pres (fun a b => inv CS_AwaitApplicationData a -> inv CS_AwaitApplicationData b)),
      (pres_iterM _ (preorder_inv _))|].
    { intros a c0 I0. apply (wp_zoom cl_eng set_cl_eng (create_record E CT_APP 1 false a) (fun _ c' => inv _ c')).
      eapply wp_mono; [apply (wp_pres Vsame), v_create_record|]. cbv beta. intros r e1 HV1.
      clear T I. rename I0 into I. pose proof (proj1 (proj1 I)) as T. st_keep. }
    cbv beta. intros r c' H. assert (I' : inv CS_AwaitApplicationData c').
    { apply H. st_keep. }
    destruct r; wps; cbn [post]; exact I'.
Qed.

Lemma inv_c_step st c : inv st c -> wp (c_step E st) (post st) c.
Proof.
  intros I. destruct st; cbn [c_step].
  - apply step_send_client_hello, I.
  - apply step_await_hvr, I.
  - apply step_await_server_hello, I.
  - apply step_await_certificate, I.
  - apply step_ske, I.
  - apply step_await_cr, I.
  - apply step_await_shd, I.
  - apply step_send_certificate, I.
  - apply step_send_cke, I.
  - apply step_send_cv, I.
  - apply step_send_ccs, I.
  - apply step_send_finished, I.
  - apply step_await_ccs, I.
  - apply step_await_nst, I.
  - apply step_await_finished, I.
  - apply step_await_app, I.
  - apply wp_ret, I.
Qed.

(** ** Progress and calls *)

Definition same_c (c c' : Client12) : Prop :=
  cl_random c' = cl_random c /\ cl_srtp c' = cl_srtp c /\ cl_srandom c' = cl_srandom c /\
  cl_certs c' = cl_certs c /\ cl_sh c' = cl_sh c.

Lemma inv_same st c c' : Tsame (cl_eng c) (cl_eng c') -> same_c c c' -> inv st c -> inv st c'.
Proof.
  intros V (S1 & S2 & S3 & S4 & S5) [[T N] F]. split; [split|].
  - destruct V. destruct st; cbn [timers_c] in *; unfold stopped, unfinished, running in *; rewrite ?ts_release; tauto.
  - rewrite S4. exact N.
  - assert (P : phase st (cl_eng c') = phase st (cl_eng c)).
    { unfold phase. rewrite (ts_release _ _ V). reflexivity. }
    rewrite P. eapply facts_kept; [lia| |exact F]. destruct V.
    constructor; intros; unfold c_T, srtp_fact in *; try congruence.
    + rewrite ts_transcript. apply starts_with_refl.
    + rewrite S2. assumption.
    + unfold secret_fact, pms_held, ms_fact, c_T in *. rewrite ts_crypto, ts_suite, ts_transcript. assumption.
Qed.

Lemma c_step_state st : pres (fun a b => cl_state b = cl_state a) (c_step E st).
Proof.
  assert (PO : preorder (fun a b => cl_state b = cl_state a)) by (split; congruence).
  assert (Hz : forall A (m : M Eng12 A), pres (fun a b => cl_state b = cl_state a) (ceng m)).
  { intros A m c. unfold ceng, zoom. destruct (m (cl_eng c)). reflexivity. }
  assert (Hx : forall es b, pres (fun a b => cl_state b = cl_state a) (sh12_extensions b es)).
  { induction es as [|[t d] es IH]; intro b; cbn [sh12_extensions];
      presauto PO ltac:(first [apply IH | apply pres_modify; reflexivity]). }
  destruct st; unfold_c_step;
    presauto PO ltac:(first [apply Hz | apply Hx | apply pres_iterM; [exact PO|intro; apply Hz] | apply pres_modify; reflexivity]).
Qed.

Definition inv_client (c : Client12) : Prop := inv (cl_state c) c.

Lemma inv_progress n : pres (fun a b => inv_client a -> inv_client b) (c_progress E n).
Proof.
  induction n as [|n IH]; intros c I; [exact I|].
  cbn [c_progress]. apply (wp_bind get _ (fun _ c' => inv_client c')), wp_get, wp_bind.
  eapply wp_mono; [apply wp_conj; [apply inv_c_step, I|apply (wp_pres (fun a b => cl_state b = cl_state a)), c_step_state]|].
  cbv beta. intros r c' [P S]. destruct r as [st|x|x]; cbn [post] in P; [|unfold inv_client; rewrite S; exact P..].
  destruct (cstate12_eqb (cl_state c) st) eqn:Heq.
  - apply wp_ret. unfold cstate12_eqb in Heq. destruct (cstate12_eq_dec (cl_state c) st); [|discriminate].
    subst st. unfold inv_client. rewrite S. exact P.
  - apply wp_bind, wp_modify. apply (wp_pres (fun a b => inv_client a -> inv_client b) _ _ IH).
    unfold inv_client. ecbn. eapply inv_same; [| |exact P]; [apply Vsame_Tsame, Vsame_refl|repeat split].
Qed.

Lemma inv_eng_same {A} (m : M Eng12 A) : pres Vsame m -> pres (fun a b => inv_client a -> inv_client b) (ceng m).
Proof.
  intros H c I. apply (wp_zoom cl_eng set_cl_eng m (fun _ c' => inv_client c')).
  eapply wp_mono; [apply (wp_pres Vsame), H|]. cbv beta. intros r e HV. unfold inv_client.
  eapply inv_same; [| |exact I]; [apply Vsame_Tsame, HV|repeat split].
Qed.

Lemma inv_set_random r c : cl_random c = None -> inv_client c -> inv_client (set_cl_random (Some r) c).
Proof.
  intros H [T F]. split; [exact T|]. ecbn.
  assert (L : phase (cl_state c) (cl_eng c) < 1).
  { destruct (N.lt_ge_cases (phase (cl_state c) (cl_eng c)) 1); [assumption|].
    destruct (f_random _ _ _ F); assumption. }
  destruct F. constructor; try lia; assumption.
Qed.

Lemma inv_call c : pres (fun a b => inv_client a -> inv_client b) (client12_call E c).
Proof.
  assert (PO := preorder_inv inv_client).
  assert (Hsame : forall f, (forall c, Tsame (cl_eng c) (cl_eng (f c)) /\ same_c c (f c) /\ cl_state (f c) = cl_state c) ->
    pres (fun a b => inv_client a -> inv_client b) (modify f)).
  { intros f Hf x I. destruct (Hf x) as (H1 & H2 & H3). unfold inv_client. cbn. rewrite H3. eapply inv_same; eauto. }
  assert (Ht : forall x, Tsame x x) by (intro; apply Vsame_Tsame, Vsame_refl).
  destruct c; cbn [client12_call]; unfold no_output, some_output.
  - unfold client12_handle_packet, c_make_progress.
    presauto PO ltac:(first [apply lf_public | apply inv_progress | apply inv_eng_same, v_parse]).
  - apply (pres_bind _ PO); [|intro; apply (pres_ret _ PO)].
    intros x I. unfold client12_poll_output. apply (wp_bind get _ (fun _ c' => inv_client c')), wp_get.
    destruct (cl_events x) as [|ev l].
    + apply (inv_eng_same _ (v_poll _ _)), I.
    + apply wp_bind, wp_modify.
      apply (wp_pres (fun a b => inv_client a -> inv_client b) _ _ (lf_event _ PO _ _ _)).
      unfold inv_client. ecbn. eapply inv_same; [| |exact I]; [apply Ht|repeat split].
  - unfold client12_handle_timeout, c_make_progress.
    apply (pres_bind _ PO); [|intro; apply (pres_ret _ PO)].
    apply (pres_bind _ PO); [apply Hsame; intro; repeat split; ecbn; auto; tauto|intros _].
    intros x I. apply (wp_bind get _ (fun _ c' => inv_client c')), wp_get. apply wp_bind.
    assert (K : forall c', inv_client c' -> wp (ceng (eng12_handle_timeout E now);;; public (c_progress E 40))
      (fun _ c' => inv_client c') c').
    { intros c' I'. apply wp_bind. unfold ceng. apply wp_zoom.
      eapply wp_mono; [apply (wp_pres Tsame), v_handle_timeout|]. cbv beta. intros r e1 HT.
      assert (I1 : inv_client (set_cl_eng e1 c')).
      { unfold inv_client. eapply inv_same; [| |exact I']; [exact HT|repeat split]. }
      destruct r; try exact I1. apply (lf_public (fun a b => inv_client a -> inv_client b)); [apply inv_progress|exact I1]. }
    destruct (cl_random x) eqn:Hr; [apply wp_ret, K, I|].
    apply wp_bind. unfold ceng at 1. apply wp_zoom.
    eapply wp_mono; [apply (wp_pres Vsame), v_random_with_time|]. cbv beta. intros r e1 HV.
    assert (I1 : inv_client (set_cl_eng e1 x)).
    { unfold inv_client. eapply inv_same; [| |exact I]; [apply Vsame_Tsame, HV|repeat split]. }
    destruct r; try exact I1. apply wp_modify. apply K. apply inv_set_random; [exact Hr|exact I1].
  - unfold client12_send.
    presauto PO ltac:(first [apply inv_eng_same, v_create_record | apply Hsame; intro; repeat split; ecbn; auto; tauto]).
  - apply (pres_bind _ PO); [|intro; apply (pres_ret _ PO)].
    intros x I. unfold client12_close. apply (wp_bind get _ (fun _ c' => inv_client c')), wp_get.
    pose proof I as I0. destruct I0 as [[T N] F].
    destruct (cl_state x) eqn:Hst; try (apply wp_ret; exact I);
    try (apply wp_bind; unfold ceng; apply wp_zoom, v_abort; intros e1 HV; apply wp_modify;
      unfold inv_client; ecbn; destruct F;
      assert (R : en_release e1 = false) by (vrw; apply T);
      (split; [split; [cbn [timers_c]; unfold stopped; vrw; auto|cbn; lia]|]);
      cbn [phase]; ecbn; rewrite R;
      constructor; try lia; unfold srtp_fact in *; vrw; assumption).
    apply wp_bind. unfold ceng. apply wp_zoom. eapply wp_mono; [apply (wp_pres Vsame), v_create_record|].
    cbv beta. intros r e1 HV.
    assert (I1 : inv CS_AwaitApplicationData (set_cl_eng e1 x)).
    { eapply inv_same; [| |unfold inv_client in I; rewrite Hst in I; exact I]; [apply Vsame_Tsame, HV|repeat split]. }
    destruct r; try (unfold inv_client; ecbn; rewrite Hst; exact I1).
    apply wp_modify. unfold inv_client. ecbn. destruct I1 as [[T1 N1] F1]. destruct T1 as [T1 R1].
    assert (I1' : inv CS_Closed (set_cl_eng e1 x)).
    { split; [split; [exact T1|cbn; lia]|]. cbn [phase c_rank] in *. ecbn. ecbn_in R1. rewrite R1.
      apply (facts_up _ _ _ F1); lia. }
    eapply inv_same; [| |exact I1']; [apply Ht|repeat split].
Qed.

Lemma inv_new e now : en_connect e <> Disabled -> en_flight e <> Disabled -> en_release e = false ->
  inv_client (client12_new e now).
Proof.
  intros H1 H2 H3. split; [split; [exact (conj H1 (conj H2 H3))|reflexivity]|].
  constructor; cbn [phase c_rank client12_new cl_state]; try lia; cbn; auto.
Qed.
End ClientStep.
