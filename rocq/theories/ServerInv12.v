(** The invariant of the DTLS 1.2 server: what holds in each state, after any
    calls. *)
From Coq Require Import String.
From Verif Require Import Prelude PreludeFacts Types Codec Codec12 Record12 Env Config Prf Context12 Monad MonadFacts
  Timer Window Engine12 Client12 Server12 Engine12Frame History12 History12Facts EndFrame12 View12
  Evidence12 ClientInv12.
Close Scope string_scope.

Lemma client_hello_grow T T' ch : starts_with T' T -> client_hello_ok T ch -> client_hello_ok T' ch.
Proof. intros H (be & raw & rest & H1 & H2). exists be, raw, rest. eauto using has_msg_grow. Qed.
Lemma client_signature_grow E T T' leaf : starts_with T' T -> client_signature_ok E T leaf ->
  client_signature_ok E T' leaf.
Proof.
  intros H (b1 & b2 & b3 & b4 & b5 & H1 & H2). exists b1, b2, b3, b4, b5. eauto using has_msg_grow.
Qed.
Lemma client_share_grow E T T' g pms : starts_with T' T -> client_share_ok E T g pms ->
  client_share_ok E T' g pms.
Proof.
  intros H (b1 & b2 & b3 & b4 & b5 & b6 & b7 & H1 & H2). exists b1, b2, b3, b4, b5, b6, b7.
  eauto using has_msg_grow.
Qed.
Lemma client_identity_grow T T' i : starts_with T' T -> client_identity_ok T i -> client_identity_ok T' i.
Proof. intros H (be & raw & rest & H1 & H2). exists be, raw, rest. eauto using has_msg_grow. Qed.

Definition s_rank (st : SState12) : N :=
  match st with
  | SS_AwaitClientHello => 0 | SS_SendServerHello => 1 | SS_SendCertificate => 2
  | SS_SendServerKeyExchange => 3 | SS_SendCertificateRequest => 4 | SS_SendServerHelloDone => 5
  | SS_AwaitCertificate => 6 | SS_AwaitClientKeyExchange => 7 | SS_AwaitCertificateVerify => 8
  | SS_AwaitChangeCipherSpec => 9 | SS_AwaitFinished => 10 | SS_SendChangeCipherSpec => 11
  | SS_SendFinished => 12 | SS_AwaitApplicationData => 13 | SS_Closed => 14
  end.

Definition phase_s (st : SState12) (e : Eng12) : N :=
  match st with SS_Closed => if en_release e then 14 else 0 | _ => s_rank st end.

Definition timers_s (st : SState12) (e : Eng12) : Prop :=
  match st with
  | SS_Closed => stopped e
  | SS_AwaitApplicationData => stopped e /\ en_release e = true
  | _ => unfinished e
  end.

Section Facts.
Variable E : Env.

Definition s_T (c : Server12) : bytes := en_transcript (sv_eng c).
Definition s_psk (c : Server12) : bool :=
  match en_suite (sv_eng c) with Some cs => suite12_is_psk cs | None => false end.

Definition s_hello_fact (c : Server12) : Prop :=
  exists ch cs, client_hello_ok (s_T c) ch /\ en_suite (sv_eng c) = Some cs /\ In cs (ch_suites ch) /\
    In cs (cfg_suites12 E (en_cfg (sv_eng c))) /\
    suite_compatible (k_auth (en_crypto (sv_eng c))) cs = true /\
    In X_EMS (map fst (ch_exts ch)) /\
    sv_crandom c = Some (ch_random ch) /\
    (forall gs, sv_groups c = Some gs -> lists_groups ch gs) /\
    (sv_groups c = None -> ~ In X_GROUPS (map fst (ch_exts ch))) /\
    (forall p, sv_srtp c = Some p -> exists ps, lists_srtp ch ps /\ In p ps) /\
    (c_cookie (en_cfg (sv_eng c)) = true -> cookie_ok E (sv_secret c) ch).

(** The group of the server's ephemeral key is allowed and was listed. *)
Definition group_ok (c : Server12) (g : N) : Prop :=
  In g (cfg_groups E (en_cfg (sv_eng c))) /\
  (forall gs, sv_groups c = Some gs -> In g gs).
Definition kx_fact (c : Server12) : Prop :=
  forall g sk pk, k_kx (en_crypto (sv_eng c)) = Some (g, sk, pk) ->
    group_ok c g /\ exists tick, e_kx_start E g tick = Some (sk, pk).

Definition s_source (c : Server12) (pms : bytes) : Prop :=
  if s_psk c then
    exists identity resolve psk, client_identity_ok (s_T c) identity /\
      cfg_resolver (en_cfg (sv_eng c)) = Some resolve /\ pms = psk_premaster psk /\
      (sv_psk_valid c = Some true -> resolve identity = Some psk)
  else exists g, group_ok c g /\ client_share_ok E (s_T c) g pms.

Definition s_ms_fact (c : Server12) (pms : bytes) : Prop :=
  exists ms cs, k_ms (en_crypto (sv_eng c)) = Some ms /\ en_suite (sv_eng c) = Some cs /\
    master_ok E (s_T c) pms ms cs.

Definition s_fin_fact (c : Server12) : Prop :=
  exists ms cs, k_ms (en_crypto (sv_eng c)) = Some ms /\ en_suite (sv_eng c) = Some cs /\
    finished_ok E (s_T c) ms cs true.

Record facts_s (n : N) (c : Server12) : Prop := {
  g_client : en_client (sv_eng c) = false;
  g_hello : 1 <= n -> s_hello_fact c;
  g_kx : 3 <= n -> kx_fact c;
  g_cert : 7 <= n -> sv_certs c = [] \/ certificates_ok (s_T c) (sv_certs c);
  g_secret : 8 <= n -> exists pms, s_source c pms /\ s_ms_fact c pms;
  g_cv : 9 <= n -> forall leaf more, sv_certs c = leaf :: more -> client_signature_ok E (s_T c) leaf;
  g_psk : 11 <= n -> s_psk c = true -> sv_psk_valid c = Some true;
  g_fin : 11 <= n -> s_fin_fact c }.

Definition inv_s (st : SState12) (c : Server12) : Prop :=
  (timers_s st (sv_eng c) /\ (s_rank st <= 6 -> sv_certs c = []) /\
   (s_rank st <= 2 -> k_kx (en_crypto (sv_eng c)) = None) /\
   (s_rank st <= 0 -> sv_srtp c = None)) /\
  facts_s (phase_s st (sv_eng c)) c.

Record keeps_s (n : N) (c c' : Server12) : Prop := {
  ks_cfg : en_cfg (sv_eng c') = en_cfg (sv_eng c);
  ks_client : en_client (sv_eng c') = en_client (sv_eng c);
  ks_auth : k_auth (en_crypto (sv_eng c')) = k_auth (en_crypto (sv_eng c));
  ks_secret : sv_secret c' = sv_secret c;
  ks_T : 1 <= n -> starts_with (s_T c') (s_T c);
  ks_suite : 1 <= n -> en_suite (sv_eng c') = en_suite (sv_eng c);
  ks_crandom : 1 <= n -> sv_crandom c' = sv_crandom c;
  ks_srtp : 1 <= n -> sv_srtp c' = sv_srtp c;
  ks_groups : 1 <= n -> sv_groups c' = sv_groups c;
  ks_certs : n <> 6 -> sv_certs c' = sv_certs c;
  ks_psk_valid : n <> 7 -> sv_psk_valid c' = sv_psk_valid c;
  ks_crypto : n <> 3 -> n <> 7 -> en_crypto (sv_eng c') = en_crypto (sv_eng c);
  ks_kx : n = 3 \/ n = 7 -> kx_fact c -> kx_fact c' }.

Lemma s_psk_kept n c c' : keeps_s n c c' -> 1 <= n -> s_psk c' = s_psk c.
Proof. intros K H. unfold s_psk. rewrite (ks_suite _ _ _ K H). reflexivity. Qed.

Lemma facts_s_kept n c c' : keeps_s n c c' -> facts_s n c -> facts_s n c'.
Proof.
  intros K F. destruct F.
  assert (G : forall g, 1 <= n -> group_ok c g -> group_ok c' g).
  { intros g Hn [H1 H2]. split; rewrite ?(ks_cfg _ _ _ K), ?(ks_groups _ _ _ K) by lia; assumption. }
  constructor.
  - rewrite (ks_client _ _ _ K). assumption.
  - intro H. destruct (g_hello0 H) as (ch & cs & H1 & H2).
    exists ch, cs. rewrite (ks_suite _ _ _ K), (ks_crandom _ _ _ K), (ks_cfg _ _ _ K), (ks_auth _ _ _ K),
      (ks_groups _ _ _ K), (ks_srtp _ _ _ K), (ks_secret _ _ _ K) by assumption.
    split; [|exact H2]. eapply client_hello_grow; [apply (ks_T _ _ _ K); lia|exact H1].
  - intro H. destruct (N.eq_dec n 3); [apply (ks_kx _ _ _ K); auto|].
    destruct (N.eq_dec n 7); [apply (ks_kx _ _ _ K); auto|].
    intros g sk pk Hk. rewrite (ks_crypto _ _ _ K) in Hk by assumption.
    destruct (g_kx0 H g sk pk Hk) as [H1 H2]. split; [apply G; [lia|exact H1]|exact H2].
  - intros H. rewrite (ks_certs _ _ _ K) by lia. destruct (g_cert0 H) as [H1|H1]; [auto|right].
    eapply certificates_grow; [apply (ks_T _ _ _ K); lia|exact H1].
  - intros H. destruct (g_secret0 H) as (pms & H1 & H2). exists pms. split.
    + unfold s_source in *. rewrite (s_psk_kept _ _ _ K) by lia.
      destruct (s_psk c).
      * destruct H1 as (id & res & psk & H1 & H3 & H4 & H5). exists id, res, psk.
        rewrite (ks_cfg _ _ _ K), (ks_psk_valid _ _ _ K) by lia.
        split; [eapply client_identity_grow; [apply (ks_T _ _ _ K); lia|exact H1]|auto].
      * destruct H1 as (g & H1 & H3). exists g. split; [apply G; [lia|exact H1]|].
        eapply client_share_grow; [apply (ks_T _ _ _ K); lia|exact H3].
    + destruct H2 as (ms & cs & H2 & H3 & H4). exists ms, cs.
      rewrite (ks_crypto _ _ _ K), (ks_suite _ _ _ K) by lia. repeat (split; [assumption|]).
      eapply master_grow; [apply (ks_T _ _ _ K); lia|exact H4].
  - intros H leaf more Hc. rewrite (ks_certs _ _ _ K) in Hc by lia.
    eapply client_signature_grow; [apply (ks_T _ _ _ K); lia|]. eapply g_cv0; eassumption.
  - intros H Hp. rewrite (s_psk_kept _ _ _ K) in Hp by lia. rewrite (ks_psk_valid _ _ _ K) by lia. auto.
  - intros H. destruct (g_fin0 H) as (ms & cs & H1 & H2 & H3). exists ms, cs.
    rewrite (ks_crypto _ _ _ K), (ks_suite _ _ _ K) by lia. repeat (split; [assumption|]).
    eapply finished_grow; [apply (ks_T _ _ _ K); lia|exact H3].
Qed.
End Facts.
