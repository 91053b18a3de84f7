(** Invariants of a DTLS 1.2 endpoint in two phases: [P1] holds of the engine until the
    cipher suite is chosen (server: while it waits for a ClientHello; client: until the
    ServerHello was read), [P2] afterwards. *)
From Verif Require Import Prelude PreludeFacts Types Codec Codec12 Record12 Monad MonadFacts Timer Env
  Config Aead Prf Window Context12 Engine12 Client12 Server12 Engine12Frame Send12Proofs History12
  History12Facts EndFrame12 Queue12Proofs View12 Poll12Proofs ClientInv12 ClientStep12 ServerInv12 ServerStep12 Timer12Proofs Tx12Proofs Keys12.

Definition same_ciphers (k k' : Crypto12) : Prop := k_ccipher k' = k_ccipher k /\ k_scipher k' = k_scipher k.
Lemma sc_maybe k pk k' : maybe_init_kx k = Some (pk, k') -> same_ciphers k k'.
Proof. unfold maybe_init_kx. destruct (k_kx_pub k); [intros [= <- <-]; split; reflexivity|]. destruct (k_kx k) as [[[g x] y]|]; [|discriminate]. intros [= <- <-]. split; reflexivity. Qed.
Lemma sc_shared E p k : same_ciphers k (snd (compute_shared_secret E p k)).
Proof. unfold compute_shared_secret. destruct (k_kx k) as [[[g x] y]|]; [|split; reflexivity]. destruct (e_kx_complete _ _ _ _); split; reflexivity. Qed.
Lemma sc_init E g t k : same_ciphers k (snd (init_ecdh_server E g t k)).
Proof.
  unfold init_ecdh_server. destruct (memN _ _); [|split; reflexivity]. destruct (e_kx_start _ _ _) as [[x y]|]; [|split; reflexivity].
  cbv zeta. destruct (maybe_init_kx _) as [[q k']|] eqn:H; [|split; reflexivity]. apply sc_maybe in H. exact H.
Qed.
Lemma sc_process E g t p k : same_ciphers k (snd (process_ecdh_params E g t p k)).
Proof.
  unfold process_ecdh_params. destruct (memN _ _); [|split; reflexivity]. destruct (e_kx_start _ _ _) as [[x y]|]; [|split; reflexivity].
  cbv zeta. destruct (maybe_init_kx _) as [[q k']|] eqn:H; [|split; reflexivity]. apply sc_maybe in H.
  pose proof (sc_shared E p k') as K. unfold same_ciphers in *. cbn in H. intuition congruence.
Qed.
Lemma sc_psk k : same_ciphers k (snd (match compute_psk_pms k with Some k' => (true, k') | None => (false, k) end)).
Proof. unfold compute_psk_pms. destruct (k_psk k); split; reflexivity. Qed.
Lemma sc_ems E sh h k : same_ciphers k (snd (match derive_ems E sh h k with Some k' => (true, k') | None => (false, k) end)).
Proof. unfold derive_ems. destruct (k_pms k); [|split; reflexivity]. cbn. destruct (prf_tls12 _ _ _ _ _ _); split; reflexivity. Qed.

(** [step_frame] without the choice of the suite and without handshake records made
    outside [create_handshake]. *)
Record ns_frame (E : Env) (R : Eng12 -> Eng12 -> Prop) : Prop := {
  nf_po : preorder R;
  nf_crypto : forall v s, same_ciphers (en_crypto s) v -> R s (set_en_crypto v s);
  nf_derive : forall cs cr sr s, en_suite s = Some cs -> R s (snd (crypto_op (derive_keys E cs cr sr) s));
  nf_orc : forall v s, R s (set_en_orc v s);
  nf_flight_begin : pres R (flight_begin E);
  nf_create_record : forall ct ep save f, ct <> CT_HS -> pres R (create_record E ct ep save f);
  nf_create_handshake : forall mt mk, pres R mk -> pres R (create_handshake E mt mk);
  nf_next_handshake : forall w, pres R (next_handshake w);
  nf_next_record : forall w, pres R (next_record w);
  nf_drop_ccs : pres R drop_pending_ccs;
  nf_enable_peer : pres R (enable_peer_encryption E);
  nf_flight_stop : pres R flight_stop_resend_timers;
  nf_release : pres R release_application_data;
  nf_discard : pres R discard_pending_writes }.
(** What the calls do besides the state steps. *)
Record io_frame (E : Env) (R : Eng12 -> Eng12 -> Prop) : Prop := {
  io_orc : forall v s, R s (set_en_orc v s);
  io_client : forall v s, R s (set_en_client v s);
  io_abort : pres R eng12_abort;
  io_parse : forall p, pres R (eng12_parse_packet E p);
  io_poll : forall cap now, pres R (eng12_poll_output cap now);
  io_timeout : forall now, pres R (eng12_handle_timeout E now) }.

Section NsLift.
Variable E : Env.
Variable R : Eng12 -> Eng12 -> Prop.
Hypothesis F : ns_frame E R.
Let PO : preorder R := nf_po _ _ F.

Lemma nl_draw : pres R draw.
Proof. apply fr_draw; [exact PO|apply F]. Qed.
Lemma nl_rand n : pres R (rand_bytes E n).
Proof. apply fr_rand_bytes; [exact PO|apply F]. Qed.
Lemma nl_crypto_op f : (forall k, same_ciphers k (snd (f k))) -> pres R (crypto_op f).
Proof. intros H s. unfold crypto_op. specialize (H (en_crypto s)). destruct (f (en_crypto s)). apply (nf_crypto _ _ F). exact H. Qed.
Lemma nl_gvd b : pres R (generate_verify_data E b).
Proof. apply fr_gvd; exact PO. Qed.
Ltac engleaf :=
  first [apply (nf_flight_begin _ _ F) | apply (nf_create_record _ _ F); discriminate
        | apply (nf_create_handshake _ _ F) | apply (nf_next_handshake _ _ F)
        | apply (nf_next_record _ _ F) | apply (nf_drop_ccs _ _ F) | apply (nf_enable_peer _ _ F)
        | apply (nf_flight_stop _ _ F) | apply (nf_release _ _ F) | apply (nf_discard _ _ F)
        | apply nl_draw | apply nl_rand | apply nl_crypto_op; intro; first [apply sc_psk | apply sc_ems | apply sc_process | apply sc_shared] | apply nl_gvd
        | apply pres_modify; intro; apply (nf_crypto _ _ F); split; reflexivity
        | apply pres_modify; intro; apply (nf_orc _ _ F) ].
Lemma nl_create_certificate : pres R create_certificate12.
Proof. unfold create_certificate12. presauto PO engleaf. Qed.
Lemma nl_create_cke : pres R create_client_key_exchange.
Proof.
  assert (POr : forall x, R x x) by (intro; apply PO).
  intros s. unfold create_client_key_exchange. unfold bind at 1, get at 1.
  destruct (en_suite s) as [cs|]; [|apply POr]. destruct (suite12_kx cs); [|..|apply POr].
  - destruct (k_kx_group (en_crypto s)); [|apply POr]. destruct (maybe_init_kx (en_crypto s)) as [[pk k]|] eqn:H; [|apply POr].
    unfold bind, modify, ret. cbn [snd]. apply (nf_crypto _ _ F). eapply sc_maybe. exact H.
  - match goal with |- R s (snd (?m s)) => enough (P : pres R m) by apply P end. presauto PO engleaf.
Qed.
Lemma nl_create_cv : pres R (create_certificate_verify E).
Proof. unfold create_certificate_verify. presauto PO engleaf. Qed.
Lemma nl_create_sh a b : pres R (create_server_hello a b).
Proof. unfold create_server_hello. presauto PO engleaf. Qed.
Lemma nl_create_ske a b c d : pres R (create_server_key_exchange E a b c d).
Proof.
  assert (POr : forall x, R x x) by (intro; apply PO).
  intros s. unfold create_server_key_exchange. unfold bind at 1, get at 1.
  destruct (en_suite s) as [cs|]; [|apply POr]. destruct (suite12_kx cs); [|apply POr..].
  unfold draw, gets, bind, get, modify, ret, fail, panic. set (s1 := set_en_orc _ s).
  assert (R0 : R s s1) by apply (nf_orc _ _ F). clearbody s1. set (t := en_orc s). clearbody t.
  pose proof (sc_init E c t (en_crypto s1)) as S1. destruct (init_ecdh_server E c t (en_crypto s1)) as [o k]. cbn [snd] in S1.
  assert (R2 : R s (set_en_crypto k s1)) by (eapply PO; [exact R0|apply (nf_crypto _ _ F k s1 S1)]).
  destruct o as [pub|]; [|exact R2]. set (s2 := set_en_orc _ (set_en_crypto k s1)).
  assert (R3 : R s s2) by (eapply PO; [exact R2|apply (nf_orc _ _ F)]). assert (K2 : en_crypto s2 = k) by reflexivity. clearbody s2.
  destruct (sign_data _ _ _ _ _); [|exact R3]. destruct (maybe_init_kx k) as [[q k']|] eqn:H; [|exact R3]. cbn [snd].
  eapply PO; [exact R3|]. apply (nf_crypto _ _ F). rewrite K2. eapply sc_maybe. exact H.
Qed.
Ltac mkleaf :=
  first [engleaf | apply nl_create_certificate | apply nl_create_cke
        | apply nl_create_cv | apply nl_create_sh | apply nl_create_ske ].
Let RC : Client12 -> Client12 -> Prop := History12Facts.RC R.
Let RC_po : preorder RC.
Proof. split; unfold RC, History12Facts.RC; intros; [apply PO|eapply PO; eauto]. Qed.
Let RS : Server12 -> Server12 -> Prop := History12Facts.RS R.
Let RS_po : preorder RS.
Proof. split; unfold RS, History12Facts.RS; intros; [apply PO|eapply PO; eauto]. Qed.
Ltac cleaf :=
  first [ assumption
        | apply (lf_ceng R); solve [presauto PO mkleaf]
        | apply pres_modify; intro; unfold RC, History12Facts.RC; cbn; apply PO ].
Ltac sleaf :=
  first [ assumption
        | apply (lf_seng R); solve [presauto PO mkleaf]
        | apply pres_modify; intro; unfold RS, History12Facts.RS; cbn; apply PO ].
Lemma wp_ems (cs : N) sh e : wp (crypto_op (fun k => match derive_ems E sh (suite12_hash cs) k with Some k' => (true, k') | None => (false, k) end))
  (fun _ e' => R e e' /\ en_suite e' = en_suite e) e.
Proof.
  unfold wp, crypto_op. pose proof (sc_ems E sh (suite12_hash cs) (en_crypto e)) as S.
  destruct (derive_ems _ _ _ _) as [k'|]; cbn [fst snd] in *; (split; [apply (nf_crypto _ _ F); exact S|reflexivity]).
Qed.
Lemma nl_c_derive : pres RC (c_derive_keys E).
Proof.
  assert (POr : forall x, RC x x) by (intro; apply RC_po).
  apply pres_wp. intros c. unfold c_derive_keys. apply wp_bind, wp_get, wp_bind. unfold of_opt.
  destruct (en_suite (cl_eng c)) as [cs|] eqn:Hs; [|apply POr]. apply wp_ret, wp_bind.
  destruct (cl_srandom c) as [sr|]; [|apply POr]. apply wp_ret. destruct (cl_random c) as [cr|]; [|apply POr].
  apply wp_bind. destruct (cl_sh c) as [sh|]; [|apply POr]. apply wp_ret, wp_bind. unfold ceng. apply wp_zoom.
  eapply wp_mono; [apply wp_ems|]. cbv beta. intros r e1 (R1 & S1). rewrite Hs in S1.
  destruct r; [|exact R1..]. apply wp_zoom. eapply wp_mono; [apply (wp_intro _ (fun r e' => crypto_op (derive_keys E cs cr sr) e1 = (r, e'))); intros r e' X; exact X|].
  cbv beta. intros r e2 X. pose proof (nf_derive _ _ F cs cr sr e1 S1) as D. ecbn_in X. rewrite X in D. cbn [snd] in D.
  unfold RC, History12Facts.RC. ecbn. eapply PO; [exact R1|exact D].
Qed.
Lemma nl_s_cke : pres RS (s_await_client_key_exchange E).
Proof.
  assert (POr : forall x, RS x x) by (intro; apply RS_po).
  unfold s_await_client_key_exchange. apply (pres_bind RS RS_po); [apply (lf_seng R), (nf_next_handshake _ _ F)|]. intros o.
  destruct o as [m|]; [|apply (pres_ret _ RS_po)]. destruct (m_body m); try apply (pres_fail _ RS_po); try apply (pres_panic _ RS_po).
  apply pres_wp. intros c1. apply wp_bind, wp_get, wp_bind. unfold of_opt.
  destruct (en_suite (sv_eng c1)) as [cs|] eqn:Hs; [|apply POr]. apply wp_ret, wp_bind.
  assert (PC : forall x, pres RS (s_process_cke E cs x)) by (intro; unfold s_process_cke; presauto RS_po sleaf).
  eapply wp_mono; [apply (wp_conj _ _ _ _ (s_cke_suite E cs _ c1) (wp_pres RS _ c1 (PC _)))|].
  cbv beta. intros r c2 (S2 & R2). destruct r; [|exact R2..].
  apply wp_bind, wp_get. cbv zeta. apply wp_bind, wp_modify.
  destruct (sv_crandom c2) as [cr|]; [|exact R2]. destruct (sv_random c2) as [sr|]; [|exact R2].
  apply wp_bind. unfold seng. apply wp_zoom. ecbn. eapply wp_mono; [apply wp_ems|]. cbv beta. intros r e1 (R3 & S3). rewrite S2, Hs in S3.
  assert (R4 : R (sv_eng c1) e1) by (eapply PO; [exact R2|exact R3]).
  destruct r; [|exact R4..]. apply wp_bind, wp_zoom. ecbn. eapply wp_mono; [apply (wp_intro _ (fun r e' => crypto_op (derive_keys E cs cr sr) e1 = (r, e'))); intros r e' X; exact X|].
  cbv beta. intros r e2 X. pose proof (nf_derive _ _ F cs cr sr e1 S3) as D. rewrite X in D. cbn [snd] in D.
  assert (R5 : R (sv_eng c1) e2) by (eapply PO; [exact R4|exact D]). destruct r; [|exact R5..]. apply wp_bind, wp_get, wp_ret. exact R5.
Qed.
Lemma nl_c_step st : 3 <= c_rank st -> pres RC (c_step E st).
Proof.
  intros Hst. destruct st; cbn [c_rank] in Hst; try (exfalso; lia);
    try (cbn [c_step]; unfold c_send_change_cipher_spec; presauto RC_po ltac:(first [apply nl_c_derive | cleaf]); fail);
    unfold_c_step; presauto RC_po cleaf.
Qed.
Lemma nl_s_step st : 1 <= s_rank st -> pres RS (s_step E st).
Proof.
  intros Hst. destruct st; cbn [s_rank] in Hst; try (exfalso; lia); try exact nl_s_cke; unfold_s_step; presauto RS_po sleaf.
Qed.
End NsLift.

Lemma c_step_late E st : 3 <= c_rank st -> rets (fun st' => 3 <= c_rank st') (c_step E st).
Proof.
  intros H. destruct st; cbn [c_rank] in H; try (exfalso; lia); unfold_c_step; rets ltac:(idtac);
    repeat (match goal with |- _ <= c_rank (if ?b then _ else _) => destruct b | |- _ <= c_rank (match ?b with _ => _ end) => destruct b end); cbn [c_rank]; lia.
Qed.
Lemma s_step_late E st : 1 <= s_rank st -> rets (fun st' => 1 <= s_rank st') (s_step E st).
Proof.
  intros H. destruct st; cbn [s_rank] in H; try (exfalso; lia); unfold_s_step; rets ltac:(idtac);
    repeat (match goal with |- _ <= s_rank (if ?b then _ else _) => destruct b | |- _ <= s_rank (match ?b with _ => _ end) => destruct b end); cbn [s_rank]; lia.
Qed.

Section Phase.
Variable E : Env.
Variables P1 P2 : Eng12 -> Prop.
Let R1 (a b : Eng12) : Prop := P1 a -> P1 b.
Let R2 (a b : Eng12) : Prop := P2 a -> P2 b.
Hypothesis H12 : forall e, P1 e -> P2 e.
Hypothesis HC : forall st, c_rank st <= 2 -> pres (History12Facts.RC R1) (c_step E st).
Hypothesis HS : pres (History12Facts.RS R1) (s_await_client_hello E).
Hypothesis F1 : io_frame E R1.
Hypothesis F2 : ns_frame E R2.
Hypothesis G2 : io_frame E R2.

Definition ph_c (c : Client12) : Prop := if c_rank (cl_state c) <=? 2 then P1 (cl_eng c) else P2 (cl_eng c).
Definition ph_s (c : Server12) : Prop := if s_rank (sv_state c) =? 0 then P1 (sv_eng c) else P2 (sv_eng c).
Definition ph (s : End12) : Prop := match s with Cl c => ph_c c | Sv c => ph_s c end.

Lemma ph_c_state st c : (c_rank st <= 2 -> P1 (cl_eng c)) -> (3 <= c_rank st -> P2 (cl_eng c)) -> ph_c (set_cl_state st c).
Proof. intros A B. unfold ph_c. cbn [cl_state set_cl_state cl_eng]. destruct (N.leb_spec (c_rank st) 2); [apply A|apply B]; lia. Qed.
Lemma ph_s_state st c : (s_rank st = 0 -> P1 (sv_eng c)) -> (1 <= s_rank st -> P2 (sv_eng c)) -> ph_s (set_sv_state st c).
Proof. intros A B. unfold ph_s. cbn [sv_state set_sv_state sv_eng]. destruct (N.eqb_spec (s_rank st) 0); [apply A|apply B]; lia. Qed.

Lemma ph_c_step c r c' : ph_c c -> c_step E (cl_state c) c = (r, c') ->
  ph_c c' /\ match r with Ok st => ph_c (set_cl_state st c') | _ => True end.
Proof.
  intros H HR. pose proof (c_step_state E (cl_state c) c) as S. cbv beta in S. rewrite HR in S. cbn [snd] in S.
  unfold ph_c in H |- * at 1. rewrite S. destruct (N.leb_spec (c_rank (cl_state c)) 2) as [L|L].
  - pose proof (HC _ L c) as K. rewrite HR in K. cbn [snd] in K. specialize (K H). split; [exact K|].
    destruct r; [|exact I..]. apply ph_c_state; intros; auto.
  - assert (L' : 3 <= c_rank (cl_state c)) by lia.
    pose proof (nl_c_step E R2 F2 _ L' c) as K. rewrite HR in K. cbn [snd] in K. specialize (K H). split; [exact K|].
    pose proof (c_step_late E _ L' c) as Q. rewrite HR in Q. cbn [fst] in Q. destruct r; [|exact I..]. apply ph_c_state; [lia|auto].
Qed.
Lemma ph_s_step c r c' : ph_s c -> s_step E (sv_state c) c = (r, c') ->
  ph_s c' /\ match r with Ok st => ph_s (set_sv_state st c') | _ => True end.
Proof.
  intros H HR. pose proof (s_step_state E (sv_state c) c) as S. cbv beta in S. rewrite HR in S. cbn [snd] in S.
  unfold ph_s in H |- * at 1. rewrite S. destruct (N.eqb_spec (s_rank (sv_state c)) 0) as [L|L].
  - assert (L' : sv_state c = SS_AwaitClientHello) by (destruct (sv_state c); [reflexivity|discriminate L..]).
    rewrite L' in HR. cbn [s_step] in HR. pose proof (HS c) as K. rewrite HR in K. cbn [snd] in K. specialize (K H). split; [exact K|].
    destruct r; [|exact I..]. apply ph_s_state; intros; auto.
  - assert (L' : 1 <= s_rank (sv_state c)) by lia.
    pose proof (nl_s_step E R2 F2 _ L' c) as K. rewrite HR in K. cbn [snd] in K. specialize (K H). split; [exact K|].
    pose proof (s_step_late E _ L' c) as Q. rewrite HR in Q. cbn [fst] in Q. destruct r; [|exact I..]. apply ph_s_state; [lia|auto].
Qed.
Let QC (a b : Client12) : Prop := ph_c a -> ph_c b.
Let QS (a b : Server12) : Prop := ph_s a -> ph_s b.
Let QC_po : preorder QC. Proof. split; unfold QC; auto. Qed.
Let QS_po : preorder QS. Proof. split; unfold QS; auto. Qed.
Lemma ph_c_progress n : pres QC (c_progress E n).
Proof.
  induction n as [|n IH]; intros c I; [exact I|].
  cbn [c_progress]. apply (wp_bind get _ (fun _ c' => ph_c c')), wp_get, wp_bind, wp_intro.
  intros r c' H. destruct (ph_c_step c r c' I H) as [K1 K2]. destruct r as [st|x|x]; [|exact K1..].
  destruct (cstate12_eqb (cl_state c) st); [apply wp_ret; exact K1|]. apply wp_bind, wp_modify.
  apply (wp_pres QC _ _ IH). exact K2.
Qed.
Lemma ph_s_progress n : pres QS (s_progress E n).
Proof.
  induction n as [|n IH]; intros c I; [exact I|].
  cbn [s_progress]. apply (wp_bind get _ (fun _ c' => ph_s c')), wp_get, wp_bind, wp_intro.
  intros r c' H. destruct (ph_s_step c r c' I H) as [K1 K2]. destruct r as [st|x|x]; [|exact K1..].
  destruct (sstate12_eqb (sv_state c) st); [apply wp_ret; exact K1|]. apply wp_bind, wp_modify.
  apply (wp_pres QS _ _ IH). exact K2.
Qed.
Lemma ph_ceng {A} (m : M Eng12 A) : pres R1 m -> pres R2 m -> pres QC (ceng m).
Proof.
  intros A1 A2 c. unfold ceng, zoom. specialize (A1 (cl_eng c)). specialize (A2 (cl_eng c)). destruct (m (cl_eng c)) as [r e].
  unfold QC, ph_c. cbn [snd cl_state set_cl_eng cl_eng] in *. destruct (_ <=? _); [apply A1|apply A2].
Qed.
Lemma ph_seng {A} (m : M Eng12 A) : pres R1 m -> pres R2 m -> pres QS (seng m).
Proof.
  intros A1 A2 c. unfold seng, zoom. specialize (A1 (sv_eng c)). specialize (A2 (sv_eng c)). destruct (m (sv_eng c)) as [r e].
  unfold QS, ph_s. cbn [snd sv_state set_sv_eng sv_eng] in *. destruct (_ =? _); [apply A1|apply A2].
Qed.
Let R1_po : preorder R1. Proof. split; unfold R1; auto. Qed.
Let R2_po : preorder R2. Proof. split; unfold R2; auto. Qed.
Lemma ph_time n : pres R1 (random_with_time E n) /\ pres R2 (random_with_time E n).
Proof. split; apply fr_random_with_time; [exact R1_po|apply F1|exact R2_po|apply G2]. Qed.
Ltac leaf Z := first [ apply Z; solve [apply F1 | apply G2 | apply ph_time] ].
Ltac same := apply pres_modify; intros ?; unfold QC, QS, ph_c, ph_s; cbn [cl_state cl_eng sv_state sv_eng set_cl_now set_cl_random set_cl_queued set_cl_events
  set_sv_now set_sv_random set_sv_queued set_sv_events]; exact (fun H => H).
Lemma ph_client_call k : pres QC (client12_call E k).
Proof.
  destruct k as [p|cap|now|d|]; cbn [client12_call]; unfold no_output, some_output.
  - unfold client12_handle_packet, c_make_progress. presauto QC_po ltac:(first [apply lf_public | apply ph_c_progress | leaf @ph_ceng]).
  - unfold client12_poll_output. presauto QC_po ltac:(first [apply (lf_event _ QC_po) | same | leaf @ph_ceng]).
  - unfold client12_handle_timeout, c_make_progress. presauto QC_po ltac:(first [apply lf_public | apply ph_c_progress | same | leaf @ph_ceng]).
  - intros c I. unfold client12_send, bind, get. destruct (cl_state c) eqn:Hs;
      try (unfold modify, ret, fail; cbn [snd]; unfold ph_c in *; cbn [cl_state set_cl_queued cl_eng]; rewrite ?Hs in *; exact I).
    pose proof (nf_create_record _ _ F2 CT_APP 1 false d ltac:(discriminate) (cl_eng c)) as K. unfold ceng, zoom.
    destruct (create_record E CT_APP 1 false d (cl_eng c)) as [[a|x|x] e]; unfold ph_c in *; rewrite Hs in I; cbn [ret cl_state set_cl_eng cl_eng snd] in *; rewrite Hs; apply K, I.
  - intros c I. assert (I2 : P2 (cl_eng c)) by (unfold ph_c in I; destruct (_ <=? _); auto).
    unfold client12_close, bind, get. destruct (cl_state c) eqn:Hs;
      try (unfold ceng, zoom; pose proof (io_abort _ _ G2 (cl_eng c)) as K; unfold eng12_abort, modify, ret in *; cbn [snd] in *;
           apply ph_c_state; cbn [c_rank cl_eng set_cl_eng]; [lia|intros _; apply K, I2]); [|unfold ret; cbn [snd]; exact I].
    pose proof (nf_create_record _ _ F2 CT_ALERT 1 false [1; 0] ltac:(discriminate) (cl_eng c)) as K. unfold ceng, zoom.
    destruct (create_record E CT_ALERT 1 false [1; 0] (cl_eng c)) as [[a|x|x] e]; unfold modify, ret; cbn [snd] in *;
      [apply ph_c_state; cbn [c_rank cl_eng set_cl_eng]; [lia|intros _; apply K, I2]|..];
      unfold ph_c; cbn [cl_state set_cl_eng cl_eng]; rewrite Hs; apply K, I2.
Qed.
Lemma ph_server_call k : pres QS (server12_call E k).
Proof.
  destruct k as [p|cap|now|d|]; cbn [server12_call]; unfold no_output, some_output.
  - unfold server12_handle_packet, s_make_progress. presauto QS_po ltac:(first [apply lf_public | apply ph_s_progress | leaf @ph_seng]).
  - unfold server12_poll_output. presauto QS_po ltac:(first [apply (lf_event _ QS_po) | same | leaf @ph_seng]).
  - unfold server12_handle_timeout, s_make_progress. presauto QS_po ltac:(first [apply lf_public | apply ph_s_progress | same | leaf @ph_seng]).
  - intros c I. unfold server12_send, bind, get. destruct (sv_state c) eqn:Hs;
      try (unfold modify, ret, fail; cbn [snd]; unfold ph_s in *; cbn [sv_state set_sv_queued sv_eng]; rewrite ?Hs in *; exact I).
    pose proof (nf_create_record _ _ F2 CT_APP 1 false d ltac:(discriminate) (sv_eng c)) as K. unfold seng, zoom.
    destruct (create_record E CT_APP 1 false d (sv_eng c)) as [[a|x|x] e]; unfold ph_s in *; rewrite Hs in I; cbn [ret sv_state set_sv_eng sv_eng snd] in *; rewrite Hs; apply K, I.
  - intros c I. assert (I2 : P2 (sv_eng c)) by (unfold ph_s in I; destruct (_ =? _); auto).
    unfold server12_close, bind, get. destruct (sv_state c) eqn:Hs;
      try (unfold seng, zoom; pose proof (io_abort _ _ G2 (sv_eng c)) as K; unfold eng12_abort, modify, ret in *; cbn [snd] in *;
           apply ph_s_state; cbn [s_rank sv_eng set_sv_eng]; [lia|intros _; apply K, I2]); [|unfold ret; cbn [snd]; exact I].
    pose proof (nf_create_record _ _ F2 CT_ALERT 1 false [1; 0] ltac:(discriminate) (sv_eng c)) as K. unfold seng, zoom.
    destruct (create_record E CT_ALERT 1 false [1; 0] (sv_eng c)) as [[a|x|x] e]; unfold modify, ret; cbn [snd] in *;
      [apply ph_s_state; cbn [s_rank sv_eng set_sv_eng]; [lia|intros _; apply K, I2]|..];
      unfold ph_s; cbn [sv_state set_sv_eng sv_eng]; rewrite Hs; apply K, I2.
Qed.
Theorem ph_call k s r s' : end12_call E k s = (r, s') -> ph s -> ph s'.
Proof.
  destruct s as [c|c]; cbn [end12_call].
  - pose proof (ph_client_call k c) as H. destruct (client12_call E k c). intros [= <- <-]. exact H.
  - pose proof (ph_server_call k c) as H. destruct (server12_call E k c). intros [= <- <-]. exact H.
Qed.
Theorem ph_reach cfg auth h s : P1 (eng12_new E cfg auth) -> reach12 E cfg auth h s -> ph s.
Proof.
  intros P0 (s0 & H0 & H). induction H as [|h s c r s' H IH NP C]; [|eapply ph_call; eauto].
  assert (K : P1 (end_eng s0) /\ match s0 with Cl c => cl_state c = CS_SendClientHello | Sv c => sv_state c = SS_AwaitClientHello end).
  { induction H0 as [now|s0 H0 IH|c0 H0 IH]; cbn in *; (split; [|reflexivity]);
      repeat first [exact P0 | apply IH | apply (io_orc _ _ F1) | apply (io_client _ _ F1)]. }
  destruct K as [K1 K2]. destruct s0 as [c|c]; cbn [ph end_eng] in *; unfold ph_c, ph_s; rewrite K2; exact K1.
Qed.
End Phase.

(** A datagram handed out was in the send queue. *)
Lemma emitted12 E k s p s' : end12_call E k s = (Ok (Some (OPacket p)), s') -> In p (en_tx (end_eng s)).
Proof.
  intros H. destruct (match k with Poll _ => true | _ => false end) eqn:Hk.
  - destruct k; try discriminate.
    pose proof (wire_poll E (fun em e => en_tx (end_eng s) = em ++ en_tx e) (fun em v x Hr => Hr) (fun em v x Hr => Hr)
      ltac:(intros em q l x Hx Hr; rewrite Hr, Hx, <- app_assoc; reflexivity) [] _ _ _ _ H eq_refl) as K.
    rewrite K. cbn [packet_in app]. left. reflexivity.
  - assert (NP : forall cap, k <> Poll cap) by (intros cap ->; discriminate). pose proof (nonpoll_no_packet E k s _ _ NP H). discriminate.
Qed.

(** Engine operations other than making new records, from a proof for the
    retransmission. *)
Section Frame3.
Variable E : Env.
Variable R : Eng12 -> Eng12 -> Prop.
Hypothesis PO : preorder R.
Let R_trans := po_trans R PO.
Hypothesis H_resend : pres R (flight_resend E).
Hypothesis R_rx : forall v s, R s (set_en_rx v s).
Hypothesis R_penc : forall v s, R s (set_en_penc v s).
Hypothesis R_replay : forall v s, R s (set_en_replay v s).
Hypothesis R_bo : forall v s, R s (set_en_bo v s).
Hypothesis R_flight : forall v s, R s (set_en_flight v s).
Hypothesis R_connect : forall v s, R s (set_en_connect v s).
Hypothesis R_confirmed : forall s, R s (set_en_confirmed true s).
Hypothesis R_cn_recv : forall s, R s (set_en_cn_recv true s).
Hypothesis R_orc : forall v s, R s (set_en_orc v s).
Lemma fr3_handle_timeout now : pres R (eng12_handle_timeout E now).
Proof using PO H_resend R_orc R_connect R_flight R_bo.
  unfold eng12_handle_timeout.
  presauto PO ltac:(first [apply (fr_draw _ PO R_orc) | apply H_resend | leaf]).
Qed.
Lemma fr3_insert_hs inc r h : pres R (insert_incoming_handshake E inc r h).
Proof using PO H_resend R_orc R_rx.
  unfold insert_incoming_handshake.
  presauto PO ltac:(first [apply H_resend | apply (fr_bsearch _ _ PO R_orc) | leaf]).
Qed.
Lemma fr3_insert inc : pres R (insert_incoming E inc).
Proof using PO H_resend R_orc R_rx.
  unfold insert_incoming.
  presauto PO ltac:(first [apply fr3_insert_hs | apply (fr_insert_non_hs _ _ PO R_rx R_orc) | leaf]).
Qed.
Lemma fr3_parse_packet p : pres R (eng12_parse_packet E p).
Proof using PO H_resend R_orc R_rx R_replay R_confirmed R_cn_recv.
  unfold eng12_parse_packet.
  presauto PO ltac:(first [apply fr3_insert
    | apply (fr_records_parse _ _ PO R_replay R_confirmed R_cn_recv) | leaf]).
Qed.
Lemma fr3_enable_peer : pres R (enable_peer_encryption E).
Proof using PO H_resend R_orc R_rx R_replay R_confirmed R_cn_recv R_penc.
  unfold enable_peer_encryption.
  presauto PO ltac:(first [apply fr3_parse_packet | leaf]).
Qed.
End Frame3.

(** A poll takes at most the first datagram of the send queue. *)
Lemma wire_poll_tx cap now s : let s' := snd (eng12_poll_output cap now s) in
  (en_tx s' = en_tx s \/ exists p, en_tx s = p :: en_tx s') /\ en_saved s' = en_saved s /\ en_cfg s' = en_cfg s /\ en_minp s' = en_minp s.
Proof.
  cbv zeta. unfold eng12_poll_output, poll_app_data, poll_packet_tx, bind, get, modify, ret, panic.
  set (e1 := set_en_rx (purge_handled (en_rx s)) s). assert (A : en_tx e1 = en_tx s /\ en_saved e1 = en_saved s /\ en_cfg e1 = en_cfg s /\ en_minp e1 = en_minp s) by (repeat split).
  clearbody e1. destruct A as (A1 & A2 & A3 & A4).
  destruct (negb (en_release e1)); [|destruct (find unhandled_app (concat (en_rx e1))) as [x|]].
  2: { destruct (cap <? _); [|destruct (r_hs x)]; cbn; auto. }
  all: destruct (en_tx e1) as [|p l] eqn:Ht; [destruct (en_cn_recv e1 && negb (en_cn_rep e1)); cbn; rewrite ?Ht; auto|].
  all: destruct (cap <? len p); cbn; rewrite ?Ht; (split; [|auto]); [left; congruence|right; exists p; congruence].
Qed.
