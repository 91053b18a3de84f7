(** Every step and every call of the DTLS 1.2 server keeps [inv_s]. *)
From Coq Require Import String.
From Verif Require Import Prelude PreludeFacts CodecProofs Types Codec Codec12 Record12 Env Config Prf Context12
  Monad MonadFacts Timer Window Engine12 Client12 Server12 Engine12Frame History12 History12Facts
  EndFrame12 View12 Evidence12 ClientInv12 ClientStep12 ServerInv12.
Close Scope string_scope.

Section ServerStep.
Variable E : Env.

Notation inv := (inv_s E).
Definition post_s (st : SState12) (r : res SState12) (c' : Server12) : Prop :=
  match r with Ok st' => inv st' c' | _ => inv st c' end.

Lemma stay_s st c c' : s_rank st < 14 -> inv st c -> keeps_s E (s_rank st) c c' ->
  timers_s st (sv_eng c') -> (s_rank st = 6 -> sv_certs c' = sv_certs c) ->
  (s_rank st = 0 -> sv_srtp c' = sv_srtp c) -> inv st c'.
Proof.
  intros Hn [(_ & N1 & N2 & N3) F] K T Hc Hs. split; [split; [exact T|]|].
  { split; [|split]; intro H.
    - destruct (N.eq_dec (s_rank st) 6); [rewrite Hc by assumption; auto|].
      rewrite (ks_certs _ _ _ _ K) by assumption. auto.
    - rewrite (ks_crypto _ _ _ _ K) by lia. auto.
    - rewrite Hs by lia. auto. }
  assert (P : forall e, phase_s st e = s_rank st) by (destruct st; auto; cbn in Hn; lia).
  rewrite P in *. eapply facts_s_kept; eauto.
Qed.

Lemma facts_s_up n n' c : facts_s E n c -> n <= n' ->
  (n < 1 -> 1 <= n' -> s_hello_fact E c) ->
  (n < 3 -> 3 <= n' -> kx_fact E c) ->
  (n < 7 -> 7 <= n' -> sv_certs c = [] \/ certificates_ok (s_T c) (sv_certs c)) ->
  (n < 8 -> 8 <= n' -> exists pms, s_source E c pms /\ s_ms_fact E c pms) ->
  (n < 9 -> 9 <= n' -> forall leaf more, sv_certs c = leaf :: more -> client_signature_ok E (s_T c) leaf) ->
  (n < 11 -> 11 <= n' -> s_psk c = true -> sv_psk_valid c = Some true) ->
  (n < 11 -> 11 <= n' -> s_fin_fact E c) ->
  facts_s E n' c.
Proof.
  intros F Hn H1 H3 H7 H8 H9 H11 H12. destruct F. constructor; auto.
  - intro H. destruct (N.lt_ge_cases n 1); auto.
  - intro H. destruct (N.lt_ge_cases n 3); auto.
  - intro H. destruct (N.lt_ge_cases n 7); auto.
  - intro H. destruct (N.lt_ge_cases n 8); auto.
  - intro H. destruct (N.lt_ge_cases n 9); eauto.
  - intro H. destruct (N.lt_ge_cases n 11); auto.
  - intro H. destruct (N.lt_ge_cases n 11); auto.
Qed.

Lemma advance_s st st' c c' : s_rank st < 14 -> s_rank st' < 14 -> s_rank st < s_rank st' ->
  inv st c -> keeps_s E (s_rank st) c c' ->
  timers_s st' (sv_eng c') ->
  (facts_s E (s_rank st) c' -> facts_s E (s_rank st') c') -> inv st' c'.
Proof.
  intros Hn Hn' Hle [(_ & N1 & N2 & N3) F] K T U. split; [split; [exact T|]|].
  { split; [|split]; intro H.
    - rewrite (ks_certs _ _ _ _ K) by lia. apply N1. lia.
    - rewrite (ks_crypto _ _ _ _ K) by lia. apply N2. lia.
    - lia. }
  assert (P : forall e, phase_s st e = s_rank st) by (destruct st; auto; cbn in Hn; lia).
  assert (P' : forall e, phase_s st' e = s_rank st') by (destruct st'; auto; cbn in Hn'; lia).
  rewrite P, P' in *. apply U. eapply facts_s_kept; eauto.
Qed.

Ltac kp := constructor; intros; unfold s_T, s_psk in *; vrw;
  first [ exfalso; cbn [s_rank] in *; lia | reflexivity | assumption
        | apply starts_with_refl | apply starts_with_app | idtac ].
Ltac tm := cbn [timers_s] in *; unfold unfinished, stopped, running in *; vrw;
  try (intuition congruence).
Ltac side := try (cbn [s_rank]; intro; first [discriminate | reflexivity]).
Ltac st_keep := eapply stay_s; [reflexivity|eassumption|kp|tm|side|side].
Ltac st_adv := eapply advance_s; [| | |eassumption| | |];
  [cbn [s_rank]; lia|cbn [s_rank]; lia|cbn [s_rank]; lia|kp|tm|].
Ltac up := let F := fresh "F" in intro F; apply (facts_s_up _ _ _ F); cbn [s_rank]; intros; try lia.
Ltac nh := apply v_next_handshake;
  [ wps; cbn [post_s]; try st_keep | intros x e1 HV1; cbn [post_s]; st_keep
  | intros x e1 HV1; cbn [post_s]; st_keep
  | intros m e1 rest Hmt Hmseq Hpb Htr HV1; rewrite hs_msg_tmsg in *; cbv beta iota ].
Ltac body m := destruct (m_body m) eqn:?; try (wps; cbn [post_s]; solve [st_keep]).

Lemma p_body_ch s raw h rest : p_body12 MT_ClientHello s raw = Some (B_ClientHello h, rest) ->
  p_ch12 raw = Some (h, rest).
Proof.
  unfold p_body12. cbn [N.eqb MT_ServerHello MT_HelloRequest MT_ClientHello MT_HelloVerifyRequest Pos.eqb].
  destruct (p_ch12 raw) as [[]|]; cbn; [|discriminate]. intros [= -> ->]. reflexivity.
Qed.

(** What reading the extensions of ClientHello collects. *)
Lemma ch12_read_exts_spec all : forall es acc x,
  (forall e, In e es -> In e all) ->
  ch12_read_exts acc es = Some x ->
  (x_ems acc = true -> In X_EMS (map fst all)) ->
  (forall ps, x_srtp acc = Some ps -> exists d mki, In (X_SRTP, d) all /\ p_srtp d = Some (ps, mki)) ->
  (forall gs, x_groups acc = Some gs -> exists d, In (X_GROUPS, d) all /\ p_groups12 d = Some gs) ->
  (x_ems x = true -> In X_EMS (map fst all)) /\
  (forall ps, x_srtp x = Some ps -> exists d mki, In (X_SRTP, d) all /\ p_srtp d = Some (ps, mki)) /\
  (forall gs, x_groups x = Some gs -> exists d, In (X_GROUPS, d) all /\ p_groups12 d = Some gs).
Proof.
  induction es as [|[t d] es IH]; intros acc x Hin H H1 H2 H3; cbn [ch12_read_exts] in H.
  - injection H as <-. auto.
  - assert (Hd : In (t, d) all) by (apply Hin; left; reflexivity).
    assert (Hin' : forall e, In e es -> In e all) by (intros e He; apply Hin; right; exact He).
    destruct (t =? X_SRTP) eqn:C1.
    { destruct (p_srtp d) as [[ps mki]|] eqn:Hp; [|discriminate]. apply IH in H; auto.
      cbn. intros ? [= <-]. apply N.eqb_eq in C1. subst t. eauto. }
    destruct (t =? X_EMS) eqn:C2.
    { apply IH in H; auto. cbn. intros _. apply N.eqb_eq in C2. subst t. apply (in_map fst) in Hd. exact Hd. }
    destruct (t =? X_GROUPS) eqn:C3.
    { destruct (p_groups12 d) as [gs|] eqn:Hp; [|discriminate]. apply IH in H; auto.
      cbn. intros ? [= <-]. apply N.eqb_eq in C3. subst t. eauto. }
    destruct (t =? X_POINTS) eqn:C4; [destruct (p_points12 d); [|discriminate]; apply IH in H; auto|].
    destruct (t =? X_SIGALGS) eqn:C5; [destruct (p_sigalgs12 d); apply IH in H; auto|].
    apply IH in H; auto.
Qed.

Lemma ch12_read_groups : forall es acc x, ch12_read_exts acc es = Some x -> x_groups x = None ->
  x_groups acc = None /\ ~ In X_GROUPS (map fst es).
Proof.
  induction es as [|[t d] es IH]; intros acc x H Hx; cbn [ch12_read_exts] in H.
  - injection H as <-. auto.
  - cbn [map fst In].
    destruct (t =? X_SRTP) eqn:C1.
    { destruct (p_srtp d) as [[ps mki]|]; [|discriminate]. destruct (IH _ _ H Hx) as [A B]. split; [exact A|].
      apply N.eqb_eq in C1. subst t. intros [F|F]; [discriminate F|auto]. }
    destruct (t =? X_EMS) eqn:C2.
    { destruct (IH _ _ H Hx) as [A B]. split; [exact A|].
      apply N.eqb_eq in C2. subst t. intros [F|F]; [discriminate F|auto]. }
    destruct (t =? X_GROUPS) eqn:C3.
    { destruct (p_groups12 d) as [gs|]; [|discriminate]. destruct (IH _ _ H Hx) as [A B]. discriminate A. }
    apply N.eqb_neq in C3.
    destruct (t =? X_POINTS) eqn:C4.
    { destruct (p_points12 d); [|discriminate]. destruct (IH _ _ H Hx) as [A B]. split; [exact A|]. intros [F|F]; auto. }
    destruct (t =? X_SIGALGS) eqn:C5.
    { destruct (p_sigalgs12 d); destruct (IH _ _ H Hx) as [A B]; (split; [exact A|]); intros [F|F]; auto. }
    destruct (IH _ _ H Hx) as [A B]. split; [exact A|]. intros [F|F]; auto.
Qed.

Lemma select_srtp_in ps p : select_srtp12 ps = Some p -> In p ps.
Proof. unfold select_srtp12. intros H. apply find_some in H. apply memN_In, H. Qed.

Lemma step_await_client_hello c : inv SS_AwaitClientHello c ->
  wp (s_await_client_hello E) (post_s SS_AwaitClientHello) c.
Proof.
  intros I. pose proof (proj1 (proj1 I)) as T. unfold s_await_client_hello, seng.
  wps. nh. body m. apply p_body_ch in Hpb.
  destruct (ch_version c0 =? V_DTLS12) eqn:H1; cbn [negb]; [|wps; cbn [post_s]; st_keep].
  destruct (memN 0 (ch_comps c0)) eqn:H2; cbn [negb]; [|wps; cbn [post_s]; st_keep].
  wpstep. wpstep. ecbn.
  destruct (negb (c_cookie _) || _) eqn:Hck; cbn [negb].
  2: { destruct (compute_cookie E _ _) as [ck|]; [|wps; cbn [post_s]; st_keep].
       wps. apply v_flight_begin. intros b0 e2 HV2. wps. apply v_create_handshake. wps.
       intros r e3 HV3. ecbn_in HV2. ecbn_in HV3. destruct r; cbn [post_s]; [|st_keep..].
       wps. apply v_reset_server. intros e4 HV4. ecbn_in HV4. wps. cbn [post_s]. st_keep. }
  destruct (select_suite12 E e1 (ch_suites c0)) as [cs|] eqn:Hsel; [|wps; cbn [post_s]; st_keep].
  unfold select_suite12 in Hsel. apply find_some in Hsel. destruct Hsel as [Hin Hok].
  apply andb_prop in Hok. destruct Hok as [Hall Hcomp].
  wps. apply v_set_suite; [intros; cbn [post_s]; st_keep|]. intros i e2 Hi HV2. ecbn_in HV2. wps; cbn [post_s]; try st_keep.
  all: apply negb_false_iff in Heqb0;
    destruct (ch12_read_exts_spec (ch_exts c0) _ _ _ (fun _ h => h) Heqo) as (X1 & X2 & X3);
    try (cbn; discriminate).
  all: pose proof (fun h => proj2 (ch12_read_groups _ _ _ Heqo h)) as XG.
  all: unfold suite_allowed in Hall; rewrite (vs_cfg _ _ HV1) in Hall, Hck; rewrite (vs_crypto _ _ HV1) in Hcomp;
    ecbn_in Hall; ecbn_in Hck; ecbn_in Hcomp.
  all: assert (Sn : sv_srtp c = None) by (apply I; cbn; lia).
  all: st_adv; up.
  all: exists c0, cs; unfold s_T; vrw.
  all: split; [eexists _, _, _; split; [apply has_msg_last|]; repeat split; [eassumption|lia|apply memN_In, H2]|].
  all: repeat (split; [first [reflexivity|assumption|apply memN_In, Hall|exact (X1 Heqb0)]|]).
  all: split; [intros p Hp|intros Hc].
  - destruct (X2 _ Heqo0) as (d & mki & Y). exists l. split; [exists d, mki; exact Y|].
    apply select_srtp_in, Hp.
  - rewrite Hc in Hck. cbn [negb orb] in Hck. unfold verify_cookie, compute_cookie in Hck.
    apply andb_prop in Hck. destruct Hck as [K1 K2].
    destruct (e_hmac E _ _ _) as [ex|] eqn:Hm; [|discriminate]. apply beqb_eq in K2. subst ex.
    split; [exact Hm|]. apply Nat.eqb_eq, K1.
  - congruence.
  - rewrite Hc in Hck. cbn [negb orb] in Hck. unfold verify_cookie, compute_cookie in Hck.
    apply andb_prop in Hck. destruct Hck as [K1 K2].
    destruct (e_hmac E _ _ _) as [ex|] eqn:Hm; [|discriminate]. apply beqb_eq in K2. subst ex.
    split; [exact Hm|]. apply Nat.eqb_eq, K1.
Qed.

Lemma kx_none c : k_kx (en_crypto (sv_eng c)) = None -> kx_fact E c.
Proof. intros H g sk pk Hk. congruence. Qed.

Lemma step_send_server_hello c : inv SS_SendServerHello c ->
  wp (s_send_server_hello E) (post_s SS_SendServerHello) c.
Proof.
  intros I. pose proof (proj1 (proj1 I)) as T. unfold s_send_server_hello, seng.
  assert (N : k_kx (en_crypto (sv_eng c)) = None) by (apply I; cbn; lia).
  wps. apply v_flight_begin. intros b0 e1 HV1. wpstep. wpstep. ecbn.
  destruct (sv_random c); [|wps; cbn [post_s]; st_keep].
  wps. apply v_create_handshake. unfold create_server_hello. wps; [|cbn [post_s]; st_keep].
  intros r e2 HV2. ecbn_in HV2. destruct r; cbn [post_s]; [|st_keep..].
  wps; cbn [post_s]; [|st_keep]. destruct (suite12_is_psk _); st_adv; up.
  apply kx_none. vrw. exact N.
Qed.

Lemma step_send_certificate c : inv SS_SendCertificate c ->
  wp (s_send_certificate E) (post_s SS_SendCertificate) c.
Proof.
  intros I. pose proof (proj1 (proj1 I)) as T. unfold s_send_certificate, seng.
  assert (N : k_kx (en_crypto (sv_eng c)) = None) by (apply I; cbn; lia).
  wps. apply v_create_handshake. unfold create_certificate12. wps; [|cbn [post_s]; st_keep].
  intros r e2 HV2. ecbn_in HV2. destruct r; cbn [post_s]; [|st_keep..]. wps. cbn [post_s].
  st_adv; up. apply kx_none. vrw. exact N.
Qed.

Lemma init_ecdh_spec g tick k o k' : init_ecdh_server E g tick k = (o, k') ->
  k_auth k' = k_auth k /\
  (k_kx k' = k_kx k \/ exists sk pk, e_kx_start E g tick = Some (sk, pk) /\ k_kx k' = Some (g, sk, pk)).
Proof.
  unfold init_ecdh_server, maybe_init_kx. destruct (memN _ _); [|intros [= <- <-]; auto].
  destruct (e_kx_start E g tick) as [[sk pk]|]; [|intros [= <- <-]; auto]. ecbn.
  destruct (k_kx_pub k); intros [= <- <-]; ecbn; (split; [reflexivity|]); right; eauto.
Qed.

Lemma select_group_ok c g : select_named_group (sv_groups c) (cfg_groups E (en_cfg (sv_eng c))) = Some g ->
  group_ok E c g.
Proof.
  unfold select_named_group, group_ok. destruct (sv_groups c) as [gs|].
  - intros H. apply find_some in H. destruct H as [H1 H2]. split; [exact H1|].
    intros ? [= <-]. apply memN_In, H2.
  - intros H. split; [|discriminate]. destruct (cfg_groups E _); [discriminate|]. injection H as <-. left. reflexivity.
Qed.

Lemma step_send_ske c : inv SS_SendServerKeyExchange c ->
  wp (s_send_server_key_exchange E) (post_s SS_SendServerKeyExchange) c.
Proof.
  intros I. pose proof (proj1 (proj1 I)) as T. pose proof (proj2 I) as F. cbn [phase_s s_rank] in F.
  assert (KX : kx_fact E c) by (apply (g_kx _ _ _ F); lia).
  unfold s_send_server_key_exchange, s_send_server_key_exchange_psk, seng. wpstep. wpstep.
  apply wp_bind, wp_of_opt. destruct (en_suite (sv_eng c)) as [cs|] eqn:Hcs; [|exact I].
  assert (K : forall e', en_crypto e' = en_crypto (sv_eng c) -> en_cfg e' = en_cfg (sv_eng c) ->
     kx_fact E (set_sv_eng e' c)).
  { intros e' E1 E2 g sk pk. ecbn. rewrite E1. intros Hk. destruct (KX g sk pk Hk) as [[G1 G2] G3].
    split; [|exact G3]. split; ecbn; [rewrite E2|]; assumption. }
  destruct (suite12_is_psk cs) eqn:Hp.
  { wpstep. wpstep. destruct (cfg_hint _); [|wps; cbn [post_s]; st_adv; up].
    wps. apply v_create_handshake. wps. intros r e2 HV2. ecbn_in HV2.
    destruct r; [|cbn [post_s]; st_keep; apply K; vrw; reflexivity..].
    wps. cbn [post_s]. st_adv; [apply K; vrw; reflexivity|up]. }
  wps; try exact I.
  match goal with H : select_named_group _ _ = Some ?g |- _ => apply select_group_ok in H; rename H into Hg; rename g into group end.
  assert (K2 : forall e', en_cfg e' = en_cfg (sv_eng c) ->
     (k_kx (en_crypto e') = k_kx (en_crypto (sv_eng c)) \/
      exists tick sk pk, e_kx_start E group tick = Some (sk, pk) /\ k_kx (en_crypto e') = Some (group, sk, pk)) ->
     kx_fact E (set_sv_eng e' c)).
  { intros e' E2 E1 g sk pk. ecbn. intros Hk. destruct E1 as [E1|(tick & sk' & pk' & E1 & E3)].
    - rewrite E1 in Hk. destruct (KX g sk pk Hk) as [[G1 G2] G3].
      split; [|exact G3]. split; ecbn; [rewrite E2|]; assumption.
    - rewrite E3 in Hk. injection Hk as -> -> ->. split; [|eauto]. destruct Hg as [G1 G2].
      split; ecbn; [rewrite E2|]; assumption. }
  apply v_create_handshake. unfold create_server_key_exchange. wpstep. wpstep. rewrite Hcs.
  destruct (suite12_kx cs); [|apply wp_fail; cbn [post_s]; st_keep; apply K; reflexivity..].
  wps. eapply wp_mono; [apply (wp_pres Vsame), v_draw|]. cbv beta. intros [tick|x|x] e1 HV1; ecbn_in HV1;
    [|cbn [post_s]; st_keep; apply K; vrw; reflexivity..].
  wpstep. wpstep. destruct (init_ecdh_server E group tick (en_crypto e1)) as [o k] eqn:Hi.
  apply init_ecdh_spec in Hi. rewrite (vs_crypto _ _ HV1) in Hi. destruct Hi as [Ha Hk].
  assert (Hk' : k_kx k = k_kx (en_crypto (sv_eng c)) \/
      exists tick sk pk, e_kx_start E group tick = Some (sk, pk) /\ k_kx k = Some (group, sk, pk))
    by (destruct Hk as [Hk|(sk & pk & Hk)]; eauto).
  clear Hk. wpstep. wpstep.
  assert (St : forall e2, Vsame (set_en_crypto k e1) e2 -> inv SS_SendServerKeyExchange (set_sv_eng e2 c)).
  { intros e2 HV2. st_keep. apply K2; vrw; [reflexivity|assumption]. }
  destruct o as [pub|]; [|apply wp_fail; cbn [post_s]; apply St, Vsame_refl].
  wps. eapply wp_mono; [apply (wp_pres Vsame), v_draw|]. cbv beta. intros [tick2|x|x] e2 HV2; ecbn_in HV2;
    [|cbn [post_s]; apply St, HV2..].
  destruct (sign_data E _ _ _ _); [|apply wp_fail; cbn [post_s]; apply St, HV2].
  assert (Hm : forall pub' k', maybe_init_kx k = Some (pub', k') -> k_auth k' = k_auth k /\ k_kx k' = k_kx k).
  { unfold maybe_init_kx. intros pub' k'. destruct (k_kx_pub k); [intros [= <- <-]; auto|].
    destruct (k_kx k) as [[[? ?] ?]|] eqn:Hkk; [|discriminate]. intros [= <- <-]. ecbn. auto. }
  destruct (maybe_init_kx k) as [[pub' k']|]; [|apply wp_panic; cbn [post_s]; apply St, HV2].
  destruct (Hm _ _ eq_refl) as [Ha' Hk2]. clear Hm. wpstep. wpstep. apply wp_ret.
  intros r e3 HV3.
  destruct r; [|cbn [post_s]; st_keep; [rewrite Ha'; exact Ha|apply K2; vrw; [reflexivity|rewrite Hk2; exact Hk']]..].
  wps. cbn [post_s]. destruct (c_req_cert _); (st_adv; [rewrite Ha'; exact Ha|apply K2; vrw; [reflexivity|rewrite Hk2; exact Hk']|up]).
Qed.

Lemma step_send_cr c : inv SS_SendCertificateRequest c ->
  wp (s_send_certificate_request E) (post_s SS_SendCertificateRequest) c.
Proof.
  intros I. pose proof (proj1 (proj1 I)) as T. unfold s_send_certificate_request, seng.
  wps. apply v_create_handshake. wps. intros r e2 HV2. ecbn_in HV2. destruct r; cbn [post_s]; [|st_keep..].
  wps. cbn [post_s]. st_adv. up.
Qed.

Lemma step_send_shd c : inv SS_SendServerHelloDone c ->
  wp (s_send_server_hello_done E) (post_s SS_SendServerHelloDone) c.
Proof.
  intros I. pose proof (proj1 (proj1 I)) as T. unfold s_send_server_hello_done, seng.
  assert (N : sv_certs c = []) by (apply I; cbn; lia).
  wps. apply v_create_handshake. wps. intros r e2 HV2. ecbn_in HV2. destruct r; cbn [post_s]; [|st_keep..].
  wps; cbn [post_s]; [|st_keep]. destruct (suite12_is_psk _); [|destruct (c_req_cert _)]; st_adv; up; left; ecbn; exact N.
Qed.

Lemma step_await_certificate c : inv SS_AwaitCertificate c ->
  wp s_await_certificate (post_s SS_AwaitCertificate) c.
Proof.
  intros I. pose proof (proj1 (proj1 I)) as T. unfold s_await_certificate, seng.
  assert (N : sv_certs c = []) by (apply I; cbn; lia).
  wps. nh. body m. apply p_body_cert in Hpb. destruct certs as [|leaf more]; wps; cbn [post_s]; st_adv; up.
  - left. ecbn. exact N.
  - right. unfold s_T. vrw. rewrite N. eexists _, _, _. split; [apply has_msg_last|]. rewrite Hpb. reflexivity.
Qed.

Lemma p_body_cke s raw k rest : p_body12 MT_ClientKeyExchange (Some s) raw = Some (B_ClientKeyExchange k, rest) ->
  p_cke12 (suite12_kx s) raw = Some (k, rest).
Proof.
  unfold p_body12. cbn [N.eqb MT_ClientKeyExchange MT_CertificateVerify MT_ServerHelloDone MT_CertificateRequest MT_NewSessionTicket MT_ServerKeyExchange MT_Certificate MT_ServerHello MT_HelloRequest MT_ClientHello MT_HelloVerifyRequest Pos.eqb].
  destruct (p_cke12 _ raw) as [[]|]; cbn; [|discriminate]. intros [= -> ->]. reflexivity.
Qed.
Lemma p_cke_ecdh k raw pub rest : p_cke12 k raw = Some (CKE_ecdh pub, rest) -> k = KX_ECDHE.
Proof. destruct k; cbn; [reflexivity|destruct (p_vec _ _) as [[]|]; discriminate|discriminate]. Qed.
Lemma p_cke_psk k raw pub rest : p_cke12 k raw = Some (CKE_psk pub, rest) -> k = KX_PSK.
Proof. destruct k; cbn; [destruct (p_vec _ _) as [[]|]; discriminate|reflexivity|discriminate]. Qed.

Lemma p_body_cv s raw alg sig rest : p_body12 MT_CertificateVerify s raw = Some (B_CertificateVerify alg sig, rest) ->
  p_signed12 raw = Some ((alg, sig), rest).
Proof.
  unfold p_body12. cbn [N.eqb MT_ClientKeyExchange MT_CertificateVerify MT_ServerHelloDone MT_CertificateRequest MT_NewSessionTicket MT_ServerKeyExchange MT_Certificate MT_ServerHello MT_HelloRequest MT_ClientHello MT_HelloVerifyRequest Pos.eqb].
  destruct (p_signed12 raw) as [[[] ]|]; cbn; [|discriminate]. intros [= -> -> ->]. reflexivity.
Qed.

Lemma step_await_cv c : inv SS_AwaitCertificateVerify c ->
  wp (s_await_certificate_verify E) (post_s SS_AwaitCertificateVerify) c.
Proof.
  intros I. pose proof (proj1 (proj1 I)) as T. unfold s_await_certificate_verify, seng.
  wps. nh. body m. apply p_body_cv in Hpb. wps; cbn [post_s]; try st_keep.
  st_adv. up. unfold s_T. vrw. eexists _, _, _, _, _. split; [apply has_msg_last|]. split; [eassumption|].
  match goal with H : sv_certs ?x = _, H' : sv_certs ?y = _ |- _ => ecbn_in H; ecbn_in H'; rewrite H in H'; injection H' as -> -> end.
  assumption.
Qed.

Lemma step_await_ccs c : inv SS_AwaitChangeCipherSpec c ->
  wp (s_await_change_cipher_spec E) (post_s SS_AwaitChangeCipherSpec) c.
Proof.
  intros I. pose proof (proj1 (proj1 I)) as T. unfold s_await_change_cipher_spec, seng.
  wps. eapply wp_mono; [apply (wp_pres Vsame), v_next_record|]. cbv beta. intros [o|x|x] e1 HV1;
    [|cbn [post_s]; st_keep..]. destruct o; wps; [|cbn [post_s]; st_keep].
  eapply wp_mono; [apply (wp_pres Vsame), v_drop_ccs|]. cbv beta. intros [o|x|x] e2 HV2; ecbn_in HV2;
    [|cbn [post_s]; st_keep..]. wps. apply v_enable_peer. intros r3 e3 HV3. ecbn_in HV3.
  destruct r3; cbn [post_s]; [|st_keep..]. wps. cbn [post_s]. st_adv. up.
Qed.

Lemma step_await_finished c : inv SS_AwaitFinished c ->
  wp (s_await_finished E) (post_s SS_AwaitFinished) c.
Proof.
  intros I. pose proof (proj1 (proj1 I)) as T. unfold s_await_finished, seng.
  wps. apply gvd_spec; [intros; cbn [post_s]; st_keep|].
  intros expected cs ms Hcs Hms Hlen Hvd. ecbn. wps. ecbn.
  assert (I1 : inv SS_AwaitFinished (set_sv_eng (sv_eng c) c)) by st_keep.
  nh. body m. apply p_body_fin in Hpb. destruct Hpb as [Hraw Hlv].
  destruct (beqb vd expected) eqn:Hbeq; cbn [negb]; [|wps; cbn [post_s]; st_keep].
  apply beqb_eq in Hbeq. subst vd.
  assert (Fin : s_fin_fact E (set_sv_eng e1 (set_sv_eng (sv_eng c) c))).
  { exists ms, cs. unfold s_T. vrw. split; [exact Hms|]. split; [exact Hcs|].
    exists (en_transcript (sv_eng c)), expected, rest. rewrite <- Hraw.
    split; [apply has_msg_last|]. split; [exact Hlen|]. exact Hvd. }
  wpstep. wpstep. ecbn. rewrite (vs_suite _ _ HV1). ecbn. rewrite Hcs.
  destruct (sv_psk_valid c) as [[]|] eqn:Hv; [| |destruct (suite12_is_psk cs) eqn:Hp].
  - wps. cbn [post_s]. st_adv. up; assumption.
  - wps. cbn [post_s]. st_keep.
  - wps. cbn [post_s]. st_keep.
  - wps. cbn [post_s]. st_adv. up; [|assumption]. exfalso.
    match goal with H : s_psk _ = true |- _ => revert H end. unfold s_psk. vrw. rewrite Hcs, Hp. discriminate.
Qed.

Lemma step_send_ccs c : inv SS_SendChangeCipherSpec c ->
  wp (s_send_change_cipher_spec E) (post_s SS_SendChangeCipherSpec) c.
Proof.
  intros I. pose proof (proj1 (proj1 I)) as T. unfold s_send_change_cipher_spec, seng.
  wps. apply v_flight_begin. intros b0 e1 HV1. ecbn_in HV1. wps.
  eapply wp_mono; [apply (wp_pres Vsame), v_create_record|]. cbv beta. intros [o|x|x] e2 HV2; ecbn_in HV2;
    [|cbn [post_s]; st_keep..]. wps. cbn [post_s]. st_adv. up.
Qed.

Lemma step_send_finished c : inv SS_SendFinished c ->
  wp (s_send_finished E) (post_s SS_SendFinished) c.
Proof.
  intros I. pose proof (proj1 (proj1 I)) as T. unfold s_send_finished, seng.
  wps. apply v_create_handshake. apply gvd_spec; [intros; cbn [post_s]; st_keep|].
  intros vd cs ms Hcs _ _ _ r e2 HV2. destruct r; cbn [post_s]; [|st_keep..].
  wps. apply v_flight_stop. intros e3 HV3. ecbn_in HV3. wpstep. wpstep. wpstep. wpstep. wpstep. ecbn.
  assert (K : forall evs (Q := post_s SS_SendFinished), wp (zoom sv_eng set_sv_eng release_application_data;;; ret SS_AwaitApplicationData) Q
     (set_sv_events evs (set_sv_eng e3 (set_sv_eng e2 c)))).
  { intros evs Q. unfold Q. wps. ecbn. apply v_release. intros e4 HV4. wps. cbn [post_s]. st_adv. up. }
  destruct (sv_srtp c); [|wps; apply K].
  assert (Hcs2 : en_suite e3 = Some cs) by (vrw; exact Hcs). rewrite Hcs2.
  destruct (extract_srtp12 _ _ _ _); wpstep; wpstep; apply K.
Qed.

Lemma step_await_app c : inv SS_AwaitApplicationData c ->
  wp (s_await_application_data E) (post_s SS_AwaitApplicationData) c.
Proof.
  intros I. pose proof (proj1 (proj1 I)) as T. unfold s_await_application_data, seng.
  wpstep. wpstep. destruct (en_cn_recv (sv_eng c)).
  - wps. eapply wp_mono; [apply (wp_pres Vsame), v_discard|]. cbv beta. intros [o|x|x] e1 HV1; ecbn_in HV1;
      [|cbn [post_s]; st_keep..]. wps. eapply wp_mono; [apply (wp_pres Vsame), v_create_record|].
    cbv beta. intros [o'|x|x] e2 HV2; ecbn_in HV2; [|cbn [post_s]; st_keep..]. wps. cbn [post_s].
    assert (I2 : inv SS_AwaitApplicationData (set_sv_eng e2 (set_sv_eng e1 c))) by st_keep.
    destruct I2 as [[T2 N2] F2]. destruct T2 as [T2 R2]. split; [split; [exact T2|cbn; repeat split; lia]|].
    cbn [phase_s s_rank] in *. rewrite R2. apply (facts_s_up _ _ _ F2); lia.
  - wps.
    eapply wp_mono; [apply (wp_pres (fun a b => inv SS_AwaitApplicationData a -> inv SS_AwaitApplicationData b)),
      (pres_iterM _ (preorder_inv _))|].
    { intros a c0 I0. apply (wp_zoom sv_eng set_sv_eng (create_record E CT_APP 1 false a) (fun _ c' => inv _ c')).
      eapply wp_mono; [apply (wp_pres Vsame), v_create_record|]. cbv beta. intros r e1 HV1.
      clear T I. rename I0 into I. pose proof (proj1 (proj1 I)) as T. st_keep. }
    cbv beta. intros r c' H. assert (I' : inv SS_AwaitApplicationData c').
    { apply H. st_keep. }
    destruct r; wps; cbn [post_s]; exact I'.
Qed.
(** What processing the key exchange of ClientKeyExchange does. *)
Definition cke_pms (c c' : Server12) (cs : N) (ckx : CKE12) : Prop :=
  match ckx with
  | CKE_ecdh pub => suite12_is_psk cs = false /\ exists g sk pk pms,
      k_kx (en_crypto (sv_eng c)) = Some (g, sk, pk) /\ e_kx_complete E g sk pub = Some pms /\
      k_pms (en_crypto (sv_eng c')) = Some pms
  | CKE_psk id => suite12_is_psk cs = true /\ exists resolve psk,
      cfg_resolver (en_cfg (sv_eng c)) = Some resolve /\
      k_pms (en_crypto (sv_eng c')) = Some (psk_premaster psk) /\
      (sv_psk_valid c' = Some true -> resolve id = Some psk)
  end.
Record cke_kept (c c' : Server12) : Prop := {
  ck_eng : Vsame (set_en_crypto (en_crypto (sv_eng c')) (sv_eng c)) (sv_eng c');
  ck_auth : k_auth (en_crypto (sv_eng c')) = k_auth (en_crypto (sv_eng c));
  ck_kx : k_kx (en_crypto (sv_eng c')) = None \/
          k_kx (en_crypto (sv_eng c')) = k_kx (en_crypto (sv_eng c));
  ck_rest : c' = set_sv_psk_valid (sv_psk_valid c') (set_sv_eng (sv_eng c') c) }.

Lemma cke_kept_refl c : cke_kept c c.
Proof. constructor; auto; [constructor; reflexivity|destruct c; reflexivity]. Qed.

Lemma process_cke_spec cs ckx c (Q : res unit -> Server12 -> Prop) :
  (forall c', cke_kept c c' -> cke_pms c c' cs ckx -> Q (Ok tt) c') ->
  (forall r c', cke_kept c c' -> (forall a, r <> Ok a) -> Q r c') ->
  wp (s_process_cke E cs ckx) Q c.
Proof.
  intros H1 H2. unfold s_process_cke, seng. destruct (suite12_is_psk cs) eqn:Hp.
  - destruct ckx as [pub|id]; [apply wp_fail, H2; [apply cke_kept_refl|discriminate]|].
    wpstep. wpstep. apply wp_bind, wp_of_opt.
    destruct (cfg_resolver (en_cfg (sv_eng c))) as [resolve|] eqn:Hres;
      [|apply H2; [apply cke_kept_refl|discriminate]].
    assert (K : forall e1 psk valid (R := Q), Vsame (sv_eng c) e1 -> (valid = true -> resolve id = Some psk) ->
      wp (modify (set_sv_psk_valid (Some valid));;;
          zoom sv_eng set_sv_eng (modify (fun e => set_en_crypto (set_k_psk (Some psk) (en_crypto e)) e));;;
          zoom sv_eng set_sv_eng (crypto_op (fun k => match compute_psk_pms k with
                                 | Some k' => (true, k') | None => (false, k) end))) R (set_sv_eng e1 c)).
    { intros e1 psk valid R HV Hval. unfold R. wps. unfold crypto_op, wp. ecbn. unfold compute_psk_pms. ecbn.
      cbn [fst snd]. apply H1.
      - constructor; ecbn; [|vrw; reflexivity|right; vrw; reflexivity|reflexivity].
        constructor; ecbn; try apply HV; reflexivity.
      - cbn [cke_pms]. split; [exact Hp|]. exists resolve, psk. ecbn. split; [exact Hres|].
        split; [reflexivity|]. intros [= ->]. auto. }
    apply wp_bind. destruct (resolve id) as [key|] eqn:Hid.
    + apply wp_ret. replace c with (set_sv_eng (sv_eng c) c) by (destruct c; reflexivity).
      apply K; [destruct c; apply Vsame_refl|reflexivity].
    + apply wp_bind, wp_zoom. eapply wp_mono; [apply (wp_pres Vsame), v_rand_bytes|]. cbv beta.
      intros r e1 HV. destruct r as [d|x|x].
      2,3: apply H2; [constructor; ecbn; [|vrw; reflexivity|right; vrw; reflexivity|destruct c; reflexivity]|discriminate];
        constructor; ecbn; try apply HV; reflexivity.
      apply wp_ret. apply K; [exact HV|discriminate].
  - destruct ckx as [pub|id]; [|apply wp_fail, H2; [apply cke_kept_refl|discriminate]].
    apply wp_zoom, v_crypto_op. intros b k e' Hb HV. unfold compute_shared_secret in Hb.
    assert (KK : k_auth k = k_auth (en_crypto (sv_eng c)) -> k_kx k = None \/ k_kx k = k_kx (en_crypto (sv_eng c)) ->
      cke_kept c (set_sv_eng e' c)).
    { intros A1 A2. constructor; ecbn; [|vrw; auto..|destruct c; reflexivity].
      constructor; ecbn; try apply HV. reflexivity. }
    destruct (k_kx (en_crypto (sv_eng c))) as [[[g sk] pk]|] eqn:Hk;
      [|injection Hb as <- <-; apply H2; [apply KK; rewrite ?Hk; auto|discriminate]].
    destruct (e_kx_complete E g sk pub) as [pms|] eqn:Hc; injection Hb as <- <-.
    + apply H1; [apply KK; ecbn; auto|]. cbn [cke_pms]. split; [exact Hp|].
      exists g, sk, pk, pms. vrw. auto.
    + apply H2; [apply KK; ecbn; auto|discriminate].
Qed.

Lemma derive_keys_kx cs cr sr k b k' : derive_keys E cs cr sr k = (b, k') -> k_kx k' = k_kx k.
Proof.
  unfold derive_keys. destruct (k_ms k) eqn:Hms; [|intros [= <- <-]; auto].
  destruct (find12 E cs); [|intros [= <- <-]; auto].
  destruct (prf_tls12 _ _ _ _ _ _); [|intros [= <- <-]; auto].
  destruct (e_mkcipher E cs _); [|intros [= <- <-]; auto].
  destruct (e_mkcipher E cs _); intros [= <- <-]; auto.
Qed.

Lemma step_await_cke c : inv SS_AwaitClientKeyExchange c ->
  wp (s_await_client_key_exchange E) (post_s SS_AwaitClientKeyExchange) c.
Proof.
  intros I. pose proof (proj1 (proj1 I)) as T. pose proof (proj2 I) as F. cbn [phase_s s_rank] in F.
  assert (KX : kx_fact E c) by (apply (g_kx _ _ _ F); lia).
  destruct (g_hello _ _ _ F) as (ch & cs & _ & Hcs & _); [lia|].
  assert (KC : forall c', en_cfg (sv_eng c') = en_cfg (sv_eng c) -> sv_groups c' = sv_groups c ->
     k_kx (en_crypto (sv_eng c')) = None \/ k_kx (en_crypto (sv_eng c')) = k_kx (en_crypto (sv_eng c)) ->
     kx_fact E c').
  { intros c' E1 E2 [E3|E3] g sk pk Hk; [congruence|]. rewrite E3 in Hk. destruct (KX _ _ _ Hk) as [[G1 G2] G3].
    split; [|exact G3]. split; [rewrite E1|rewrite E2]; assumption. }
  unfold s_await_client_key_exchange, seng. wps. apply v_next_handshake;
  [ wps; cbn [post_s]; st_keep; apply KC; auto
  | intros x e1 HV1; cbn [post_s]; st_keep; apply KC; vrw; auto
  | intros x e1 HV1; cbn [post_s]; st_keep; apply KC; vrw; auto
  | intros m e1 rest Hmt Hmseq Hpb Htr HV1; rewrite hs_msg_tmsg in *; cbv beta iota ].
  destruct (m_body m) eqn:Hmb; try (wps; cbn [post_s]; solve [st_keep; apply KC; vrw; auto]).
  rewrite Hcs in Hpb. apply p_body_cke in Hpb.
  wpstep. wpstep. ecbn. rewrite (vs_suite _ _ HV1). ecbn. rewrite Hcs. apply wp_bind, wp_of_opt. cbv beta iota.
  apply wp_bind, process_cke_spec.
  2: { intros r c' [CE CA CX CR] Hr. ecbn_in CE. rewrite CR. clear CR. revert CE CA CX.
    generalize (sv_eng c'). generalize (sv_psk_valid c'). clear c'. intros pv e' CE CA CX. ecbn_in CA. ecbn_in CX.
    assert (inv SS_AwaitClientKeyExchange (set_sv_psk_valid pv (set_sv_eng e' (set_sv_eng e1 c)))).
    { assert (C1 : k_auth (en_crypto e') = k_auth (en_crypto (sv_eng c))) by (rewrite CA; vrw; reflexivity).
      assert (C2 : k_kx (en_crypto e') = None \/ k_kx (en_crypto e') = k_kx (en_crypto (sv_eng c))).
      { destruct CX as [CX|CX]; [auto|right; rewrite CX; vrw; reflexivity]. }
      clear CA CX. revert C1 C2 CE. generalize (en_crypto e') at 1 2 3 4. intros k C1 C2 CE.
      st_keep; apply KC; vrw; auto. }
    destruct r; [destruct (Hr a eq_refl)|assumption..]. }
  intros c' [CE CA CX CR] Hpms. ecbn_in CE. rewrite CR in *. clear CR. revert CE CA CX Hpms.
  generalize (sv_eng c'). generalize (sv_psk_valid c'). clear c'. intros pv e2 CE CA CX Hpms. ecbn_in CA. ecbn_in CX.
  assert (C1 : k_auth (en_crypto e2) = k_auth (en_crypto (sv_eng c))) by (rewrite CA; vrw; reflexivity).
  assert (C2 : k_kx (en_crypto e2) = None \/ k_kx (en_crypto e2) = k_kx (en_crypto (sv_eng c))).
  { destruct CX as [CX|CX]; [auto|right; rewrite CX; vrw; reflexivity]. }
  assert (Hp2 : k_pms (en_crypto e2) <> None /\ forall c3, en_suite (sv_eng c3) = Some cs ->
    en_cfg (sv_eng c3) = en_cfg (sv_eng c) -> sv_groups c3 = sv_groups c -> sv_psk_valid c3 = pv ->
    starts_with (s_T c3) (s_T c ++ tmsg MT_ClientKeyExchange (en_peer_hs (sv_eng c)) (m_raw m)) ->
    forall pms, k_pms (en_crypto e2) = Some pms -> s_source E c3 pms).
  { destruct c0 as [pub|id]; cbn [cke_pms] in Hpms; ecbn_in Hpms; destruct Hpms as [Hps Hpms].
    - destruct Hpms as (g & sk & pk & pms & P1 & P2 & P3). split; [congruence|].
      rewrite (vs_crypto _ _ HV1) in P1. ecbn_in P1. destruct (KX _ _ _ P1) as [[G1 G2] [tick G3]].
      intros c3 E1 E2 E3 E4 E5 pms' E6. unfold s_source, s_psk. rewrite E1, Hps. exists g. split.
      + split; [rewrite E2|rewrite E3]; assumption.
      + rewrite (p_cke_ecdh _ _ _ _ Hpb) in Hpb. exists (s_T c), (m_raw m), rest, pub, tick, sk, pk.
        split; [eapply has_msg_grow; [exact E5|apply has_msg_last]|]. split; [exact Hpb|].
        split; [exact G3|]. congruence.
    - destruct Hpms as (resolve & psk & P1 & P2 & P3). split; [congruence|].
      rewrite (vs_cfg _ _ HV1) in P1. ecbn_in P1.
      intros c3 E1 E2 E3 E4 E5 pms' E6. unfold s_source, s_psk. rewrite E1, Hps. exists id, resolve, psk.
      rewrite (p_cke_psk _ _ _ _ Hpb) in Hpb. split.
      { exists (s_T c), (m_raw m), rest. split; [eapply has_msg_grow; [exact E5|apply has_msg_last]|exact Hpb]. }
      rewrite E2. split; [exact P1|]. split; [congruence|]. rewrite E4. exact P3. }
  clear Hpms CA CX. destruct Hp2 as [Hpn Hsrc]. ecbn_in CE. set (k2 := en_crypto e2) in *. clearbody k2.
  wpstep. wpstep. ecbn. wpstep. wpstep.
  destruct (sv_crandom c) as [cr|]; [|wps; cbn [post_s]; st_keep; apply KC; vrw; auto].
  destruct (sv_random c) as [sr|]; [|wps; cbn [post_s]; st_keep; apply KC; vrw; auto].
  wps. apply v_crypto_op. intros b k3 e3 Hb HV3. ecbn_in HV3. ecbn_in Hb. rewrite (vs_crypto _ _ CE) in Hb. ecbn_in Hb.
  unfold derive_ems in Hb. destruct (k_pms k2) as [pms|] eqn:Hk2; [|congruence].
  destruct (prf_tls12 E _ pms _ _ 48) as [ms|] eqn:Hprf; injection Hb as <- <-;
    [|cbn [post_s]; st_keep; apply KC; vrw; auto].
  wps. apply v_crypto_op. intros b k4 e4 Hb HV4. ecbn_in HV4. ecbn_in Hb. rewrite (vs_crypto _ _ HV3) in Hb.
  pose proof (derive_keys_kx _ _ _ _ _ _ Hb) as Hkx4. apply derive_keys_keeps in Hb. ecbn_in Hb. ecbn_in Hkx4.
  destruct Hb as (Hms4 & Hpms4 & Ha4).
  destruct b; [|cbn [post_s]; st_keep; [rewrite Ha4; exact C1|apply KC; vrw; rewrite ?Hkx4; auto]].
  wpstep. wpstep. apply wp_ret. cbn [post_s]. ecbn.
  assert (Sec : exists pms0, s_source E (set_sv_eng e4 (set_sv_eng e3 (set_sv_sh (Some (transcript_hash E e2 (suite12_hash cs)))
       (set_sv_psk_valid pv (set_sv_eng e2 (set_sv_eng e1 c)))))) pms0 /\
     s_ms_fact E (set_sv_eng e4 (set_sv_eng e3 (set_sv_sh (Some (transcript_hash E e2 (suite12_hash cs)))
       (set_sv_psk_valid pv (set_sv_eng e2 (set_sv_eng e1 c)))))) pms0).
  { exists pms. split.
    - apply Hsrc; unfold s_T; vrw; try reflexivity; [exact Hcs|apply starts_with_refl].
    - exists ms, cs. unfold s_T. vrw. split; [exact Hms4|]. split; [exact Hcs|].
      exists (s_T c), (m_raw m), (en_peer_hs (sv_eng c)). split; [apply starts_with_refl|].
      revert Hprf. unfold transcript_hash. vrw. exact (fun h => h). }
  destruct (is_nil (sv_certs c)) eqn:Hnil;
    (st_adv; [rewrite Ha4; exact C1|apply KC; vrw; rewrite ?Hkx4; auto|up; try exact Sec]).
  match goal with H : sv_certs _ = _ :: _ |- _ => ecbn_in H; rewrite H in Hnil; discriminate end.
Qed.

Lemma inv_s_step st c : inv st c -> wp (s_step E st) (post_s st) c.
Proof.
  intros I. destruct st; cbn [s_step].
  - apply step_await_client_hello, I.
  - apply step_send_server_hello, I.
  - apply step_send_certificate, I.
  - apply step_send_ske, I.
  - apply step_send_cr, I.
  - apply step_send_shd, I.
  - apply step_await_certificate, I.
  - apply step_await_cke, I.
  - apply step_await_cv, I.
  - apply step_await_ccs, I.
  - apply step_await_finished, I.
  - apply step_send_ccs, I.
  - apply step_send_finished, I.
  - apply step_await_app, I.
  - apply wp_ret, I.
Qed.

(** ** Progress and calls *)

Definition same_s (c c' : Server12) : Prop :=
  sv_secret c' = sv_secret c /\ sv_srtp c' = sv_srtp c /\ sv_crandom c' = sv_crandom c /\
  sv_certs c' = sv_certs c /\ sv_groups c' = sv_groups c /\ sv_psk_valid c' = sv_psk_valid c.

Lemma inv_s_same st c c' : Tsame (sv_eng c) (sv_eng c') -> same_s c c' -> inv st c -> inv st c'.
Proof.
  intros V (S1 & S2 & S3 & S4 & S5 & S6) [(T & N1 & N2 & N3) F]. split; [split|].
  - destruct V. destruct st; cbn [timers_s] in *; unfold stopped, unfinished, running in *; rewrite ?ts_release; tauto.
  - rewrite S4, S2, (ts_crypto _ _ V). auto.
  - assert (P : phase_s st (sv_eng c') = phase_s st (sv_eng c)).
    { unfold phase_s. rewrite (ts_release _ _ V). reflexivity. }
    rewrite P. eapply facts_s_kept; [|exact F]. destruct V.
    constructor; intros; unfold s_T in *; try congruence.
    + rewrite ts_transcript. apply starts_with_refl.
    + intros g sk pk. rewrite ts_crypto. intros Hk. match goal with H : kx_fact E c |- _ => destruct (H _ _ _ Hk) as [[G1 G2] G3] end.
      split; [|exact G3]. split; [rewrite ts_cfg|rewrite S5]; assumption.
Qed.

Lemma s_step_state st : pres (fun a b => sv_state b = sv_state a) (s_step E st).
Proof.
  assert (PO : preorder (fun a b => sv_state b = sv_state a)) by (split; congruence).
  assert (Hz : forall A (m : M Eng12 A), pres (fun a b => sv_state b = sv_state a) (seng m)).
  { intros A m c. unfold seng, zoom. destruct (m (sv_eng c)). reflexivity. }
  destruct st; unfold_s_step;
    presauto PO ltac:(first [apply Hz | apply pres_iterM; [exact PO|intro; apply Hz] | apply pres_modify; reflexivity]).
Qed.

Definition inv_server (c : Server12) : Prop := inv (sv_state c) c.

Lemma inv_s_progress n : pres (fun a b => inv_server a -> inv_server b) (s_progress E n).
Proof.
  induction n as [|n IH]; intros c I; [exact I|].
  cbn [s_progress]. apply (wp_bind get _ (fun _ c' => inv_server c')), wp_get, wp_bind.
  eapply wp_mono; [apply wp_conj; [apply inv_s_step, I|apply (wp_pres (fun a b => sv_state b = sv_state a)), s_step_state]|].
  cbv beta. intros r c' [P S]. destruct r as [st|x|x]; cbn [post_s] in P; [|unfold inv_server; rewrite S; exact P..].
  destruct (sstate12_eqb (sv_state c) st) eqn:Heq.
  - apply wp_ret. unfold sstate12_eqb in Heq. destruct (sstate12_eq_dec (sv_state c) st); [|discriminate].
    subst st. unfold inv_server. rewrite S. exact P.
  - apply wp_bind, wp_modify. apply (wp_pres (fun a b => inv_server a -> inv_server b) _ _ IH).
    unfold inv_server. ecbn. eapply inv_s_same; [| |exact P]; [apply Vsame_Tsame, Vsame_refl|repeat split].
Qed.

Lemma inv_s_eng_same {A} (m : M Eng12 A) : pres Vsame m -> pres (fun a b => inv_server a -> inv_server b) (seng m).
Proof.
  intros H c I. apply (wp_zoom sv_eng set_sv_eng m (fun _ c' => inv_server c')).
  eapply wp_mono; [apply (wp_pres Vsame), H|]. cbv beta. intros r e HV. unfold inv_server.
  eapply inv_s_same; [| |exact I]; [apply Vsame_Tsame, HV|repeat split].
Qed.

Lemma inv_s_call c : pres (fun a b => inv_server a -> inv_server b) (server12_call E c).
Proof.
  assert (PO := preorder_inv inv_server).
  assert (Hsame : forall f, (forall c, Tsame (sv_eng c) (sv_eng (f c)) /\ same_s c (f c) /\ sv_state (f c) = sv_state c) ->
    pres (fun a b => inv_server a -> inv_server b) (modify f)).
  { intros f Hf x I. destruct (Hf x) as (H1 & H2 & H3). unfold inv_server. cbn. rewrite H3. eapply inv_s_same; eauto. }
  assert (Ht : forall x, Tsame x x) by (intro; apply Vsame_Tsame, Vsame_refl).
  destruct c; cbn [server12_call]; unfold no_output, some_output.
  - unfold server12_handle_packet, s_make_progress.
    presauto PO ltac:(first [apply lf_public | apply inv_s_progress | apply inv_s_eng_same, v_parse]).
  - apply (pres_bind _ PO); [|intro; apply (pres_ret _ PO)].
    intros x I. unfold server12_poll_output. apply (wp_bind get _ (fun _ c' => inv_server c')), wp_get.
    destruct (sv_events x) as [|ev l].
    + apply (inv_s_eng_same _ (v_poll _ _)), I.
    + apply wp_bind, wp_modify.
      apply (wp_pres (fun a b => inv_server a -> inv_server b) _ _ (lf_event _ PO _ _ _)).
      unfold inv_server. ecbn. eapply inv_s_same; [| |exact I]; [apply Ht|repeat split].
  - unfold server12_handle_timeout, s_make_progress.
    apply (pres_bind _ PO); [|intro; apply (pres_ret _ PO)].
    apply (pres_bind _ PO); [apply Hsame; intro; repeat split; ecbn; auto; tauto|intros _].
    intros x I. apply (wp_bind get _ (fun _ c' => inv_server c')), wp_get. apply wp_bind.
    assert (K : forall c', inv_server c' -> wp (seng (eng12_handle_timeout E now);;; public (s_progress E 40))
      (fun _ c' => inv_server c') c').
    { intros c' I'. apply wp_bind. unfold seng. apply wp_zoom.
      eapply wp_mono; [apply (wp_pres Tsame), v_handle_timeout|]. cbv beta. intros r e1 HT.
      assert (I1 : inv_server (set_sv_eng e1 c')).
      { unfold inv_server. eapply inv_s_same; [| |exact I']; [exact HT|repeat split]. }
      destruct r; try exact I1. apply (lf_public (fun a b => inv_server a -> inv_server b)); [apply inv_s_progress|exact I1]. }
    destruct (sv_random x) eqn:Hr; [apply wp_ret, K, I|].
    apply wp_bind. unfold seng at 1. apply wp_zoom.
    eapply wp_mono; [apply (wp_pres Vsame), v_random_with_time|]. cbv beta. intros r e1 HV.
    assert (I1 : inv_server (set_sv_eng e1 x)).
    { unfold inv_server. eapply inv_s_same; [| |exact I]; [apply Vsame_Tsame, HV|repeat split]. }
    destruct r; try exact I1. apply wp_modify. apply K.
    unfold inv_server. ecbn. eapply inv_s_same; [| |exact I1]; [apply Ht|repeat split].
  - unfold server12_send.
    presauto PO ltac:(first [apply inv_s_eng_same, v_create_record | apply Hsame; intro; repeat split; ecbn; auto; tauto]).
  - apply (pres_bind _ PO); [|intro; apply (pres_ret _ PO)].
    intros x I. unfold server12_close. apply (wp_bind get _ (fun _ c' => inv_server c')), wp_get.
    pose proof I as I0. destruct I0 as [(T & N1 & N2 & N3) F].
    destruct (sv_state x) eqn:Hst; try (apply wp_ret; exact I);
    try (apply wp_bind; unfold seng; apply wp_zoom, v_abort; intros e1 HV; apply wp_modify;
      unfold inv_server; ecbn; destruct F;
      assert (R : en_release e1 = false) by (vrw; apply T);
      (split; [split; [cbn [timers_s]; unfold stopped; vrw; auto|cbn; repeat split; lia]|]);
      cbn [phase_s]; ecbn; rewrite R;
      constructor; try lia; vrw; assumption).
    apply wp_bind. unfold seng. apply wp_zoom. eapply wp_mono; [apply (wp_pres Vsame), v_create_record|].
    cbv beta. intros r e1 HV.
    assert (I1 : inv SS_AwaitApplicationData (set_sv_eng e1 x)).
    { eapply inv_s_same; [| |unfold inv_server in I; rewrite Hst in I; exact I]; [apply Vsame_Tsame, HV|repeat split]. }
    destruct r; try (unfold inv_server; ecbn; rewrite Hst; exact I1).
    apply wp_modify. unfold inv_server. ecbn. destruct I1 as [(T1 & N1') F1]. destruct T1 as [T1 R1].
    assert (I1' : inv SS_Closed (set_sv_eng e1 x)).
    { split; [split; [exact T1|cbn; repeat split; lia]|]. cbn [phase_s s_rank] in *. ecbn. ecbn_in R1. rewrite R1.
      apply (facts_s_up _ _ _ F1); lia. }
    eapply inv_s_same; [| |exact I1']; [apply Ht|repeat split].
Qed.

Lemma inv_s_new e now : en_connect e <> Disabled -> en_flight e <> Disabled -> en_release e = false ->
  k_kx (en_crypto e) = None -> inv_server (server12_new E e now).
Proof.
  intros H1 H2 H3 H4. split; [split; [exact (conj H1 (conj H2 H3))|repeat split; cbn; auto]|].
  constructor; cbn [phase_s s_rank server12_new sv_state]; try lia; cbn; auto.
Qed.
End ServerStep.
