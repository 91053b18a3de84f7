(** The configuration and the endpoint's own credentials never change. *)
From Verif Require Import Prelude Types Codec Codec12 Record12 Env Config Prf Context12 Monad MonadFacts
  Timer Window Engine12 Client12 Server12 Engine12Frame History12 History12Facts EndFrame12 View12.

Definition same_auth (a b : Eng12) : Prop :=
  en_cfg b = en_cfg a /\ k_auth (en_crypto b) = k_auth (en_crypto a).

Lemma sa_po : preorder same_auth.
Proof. split; [split; reflexivity|]. intros a b c [H1 H2] [H3 H4]. split; congruence. Qed.

Ltac sat := intros; split; reflexivity.
Ltac sapre := first [exact sa_po | assumption | sat].

Section Auth.
Variable E : Env.

Lemma sa_crypto_op f : (forall k, k_auth (snd (f k)) = k_auth k) -> pres same_auth (crypto_op f).
Proof.
  intros H s. unfold crypto_op. specialize (H (en_crypto s)). destruct (f (en_crypto s)).
  split; [reflexivity|exact H].
Qed.

Lemma maybe_init_auth k p k' : maybe_init_kx k = Some (p, k') -> k_auth k' = k_auth k.
Proof.
  unfold maybe_init_kx. destruct (k_kx_pub k); [intros [= <- <-]; reflexivity|].
  destruct (k_kx k) as [[[g sk] pk]|]; [intros [= <- <-]; reflexivity|discriminate].
Qed.
Lemma shared_auth peer k : k_auth (snd (compute_shared_secret E peer k)) = k_auth k.
Proof.
  unfold compute_shared_secret. destruct (k_kx k) as [[[g sk] pk]|]; [|reflexivity].
  destruct (e_kx_complete E g sk peer); reflexivity.
Qed.
Lemma params_auth g t peer k : k_auth (snd (process_ecdh_params E g t peer k)) = k_auth k.
Proof.
  unfold process_ecdh_params. destruct (memN g _); [|reflexivity].
  destruct (e_kx_start E g t) as [[sk pk]|]; [|reflexivity].
  destruct (maybe_init_kx _) as [[p k']|] eqn:H; [|reflexivity].
  apply maybe_init_auth in H. rewrite shared_auth, H. reflexivity.
Qed.
Lemma init_auth g t k : k_auth (snd (init_ecdh_server E g t k)) = k_auth k.
Proof.
  unfold init_ecdh_server. destruct (memN g _); [|reflexivity].
  destruct (e_kx_start E g t) as [[sk pk]|]; [|reflexivity].
  destruct (maybe_init_kx _) as [[p k']|] eqn:H; [|reflexivity].
  apply maybe_init_auth in H. exact H.
Qed.
Lemma keys_auth cs cr sr k : k_auth (snd (derive_keys E cs cr sr k)) = k_auth k.
Proof.
  unfold derive_keys. destruct (k_ms k); [|reflexivity]. destruct (find12 E cs); [|reflexivity].
  destruct (prf_tls12 _ _ _ _ _ _); [|reflexivity]. destruct (e_mkcipher _ _ _); [|reflexivity].
  destruct (e_mkcipher _ _ _); reflexivity.
Qed.
Lemma ems_auth sh h k :
  k_auth (snd (match derive_ems E sh h k with Some k' => (true, k') | None => (false, k) end)) = k_auth k.
Proof.
  unfold derive_ems. destruct (k_pms k); [|reflexivity]. cbn. destruct (prf_tls12 _ _ _ _ _ _); reflexivity.
Qed.
Lemma psk_auth k :
  k_auth (snd (match compute_psk_pms k with Some k' => (true, k') | None => (false, k) end)) = k_auth k.
Proof. unfold compute_psk_pms. destruct (k_psk k); reflexivity. Qed.

Ltac engleaf :=
  first [ apply fr_flight_begin; sapre | apply fr_create_record; sapre
        | apply fr_next_handshake; sapre | apply fr_next_record; sapre | apply fr_drop_ccs; sapre
        | apply fr_reset_client; sapre | apply fr_reset_server; sapre | apply fr_set_suite; sapre
        | apply fr_enable_peer; sapre | apply fr_flight_stop; sapre | apply fr_release; sapre
        | apply fr_discard; sapre | apply fr_draw; sapre | apply fr_rand_bytes; sapre
        | apply fr_random_with_time; sapre | apply fr_gvd; sapre
        | apply fr_create_handshake; try sapre ].
Ltac cryptoleaf :=
  first [ apply sa_crypto_op; intro; first [apply shared_auth|apply params_auth|apply keys_auth|apply ems_auth|apply psk_auth]
        | apply pres_modify; intro; split; reflexivity ].

Lemma sa_create_certificate : pres same_auth create_certificate12.
Proof. unfold create_certificate12. presauto sa_po engleaf. Qed.
Lemma sa_create_ch a b c : pres same_auth (create_client_hello E a b c).
Proof. unfold create_client_hello. presauto sa_po engleaf. Qed.
Lemma sa_create_cke : pres same_auth create_client_key_exchange.
Proof.
  intros s. unfold create_client_key_exchange.
  apply (wp_bind get _ (fun _ s' => same_auth s s')), wp_get.
  destruct (en_suite s) as [cs|]; [|apply wp_fail, sa_po].
  destruct (suite12_kx cs); [|apply (wp_pres same_auth); presauto sa_po cryptoleaf..].
  destruct (k_kx_group _); [|apply wp_panic, sa_po].
  destruct (maybe_init_kx _) as [[pk k]|] eqn:H; [|apply wp_fail, sa_po].
  wps. apply maybe_init_auth in H. split; [reflexivity|exact H].
Qed.
Lemma sa_create_cv : pres same_auth (create_certificate_verify E).
Proof. unfold create_certificate_verify. presauto sa_po engleaf. Qed.
Lemma sa_create_sh a b : pres same_auth (create_server_hello a b).
Proof. unfold create_server_hello. presauto sa_po engleaf. Qed.
Lemma sa_create_ske a b c d : pres same_auth (create_server_key_exchange E a b c d).
Proof.
  intros s. unfold create_server_key_exchange, draw.
  apply (wp_bind get _ (fun _ s' => same_auth s s')), wp_get.
  destruct (en_suite s) as [cs|]; [|apply wp_fail, sa_po].
  destruct (suite12_kx cs); [|apply wp_fail, sa_po..].
  wpstep. wpstep. wpstep. wpstep. wpstep. wpstep. wpstep. apply wp_get.
  destruct (init_ecdh_server E c _ _) as [o k] eqn:Hi.
  assert (H1 : k_auth k = k_auth (en_crypto s)) by (etransitivity; [|apply (init_auth c (en_orc s) (en_crypto s))]; ecbn_in Hi; rewrite Hi; reflexivity).
  apply wp_bind, wp_modify. destruct o as [pub|]; [|apply wp_fail; split; [reflexivity|exact H1]].
  wps; try (split; [reflexivity|exact H1]).
  match goal with H : maybe_init_kx _ = _ |- _ => apply maybe_init_auth in H end.
  split; [reflexivity|ecbn; congruence].
Qed.

Ltac mkleaf :=
  first [ apply sa_create_certificate | apply sa_create_ch | apply sa_create_cke
        | apply sa_create_cv | apply sa_create_sh | apply sa_create_ske | cryptoleaf | engleaf ].

Definition SC (a b : Client12) : Prop := same_auth (cl_eng a) (cl_eng b).
Lemma SC_po : preorder SC.
Proof. split; unfold SC; intros; [apply sa_po|eapply sa_po; eauto]. Qed.
Lemma sa_ceng {A} (m : M Eng12 A) : pres same_auth m -> pres SC (ceng m).
Proof. apply pres_zoom. auto. Qed.
Ltac cleaf :=
  first [ assumption
        | apply sa_ceng; solve [presauto sa_po mkleaf]
        | apply pres_modify; intro; split; reflexivity ].
Lemma sa_sh12_extensions es : forall b, pres SC (sh12_extensions b es).
Proof.
  induction es as [|[t d] es IH]; intro b; cbn [sh12_extensions]; presauto SC_po ltac:(first [apply IH|cleaf]).
Qed.
Lemma sa_c_step st : pres SC (c_step E st).
Proof. destruct st; unfold_c_step; presauto SC_po ltac:(first [apply sa_sh12_extensions | cleaf]). Qed.
Lemma sa_c_progress n : pres SC (c_progress E n).
Proof. induction n as [|n IH]; cbn [c_progress]; presauto SC_po ltac:(first [apply sa_c_step | cleaf]). Qed.

Definition SS (a b : Server12) : Prop := same_auth (sv_eng a) (sv_eng b).
Lemma SS_po : preorder SS.
Proof. split; unfold SS; intros; [apply sa_po|eapply sa_po; eauto]. Qed.
Lemma sa_seng {A} (m : M Eng12 A) : pres same_auth m -> pres SS (seng m).
Proof. apply pres_zoom. auto. Qed.
Ltac sleaf :=
  first [ assumption
        | apply sa_seng; solve [presauto sa_po mkleaf]
        | apply pres_modify; intro; split; reflexivity ].
Lemma sa_s_step st : pres SS (s_step E st).
Proof. destruct st; unfold_s_step; presauto SS_po sleaf. Qed.
Lemma sa_s_progress n : pres SS (s_progress E n).
Proof. induction n as [|n IH]; cbn [s_progress]; presauto SS_po ltac:(first [apply sa_s_step | sleaf]). Qed.

Ltac apileaf :=
  first [ apply fr_create_record; sapre | apply fr_abort; sapre | apply fr_parse_packet; sapre
        | apply fr_poll_output; sapre | apply fr_handle_timeout; sapre | apply fr_random_with_time; sapre ].
Lemma sa_client_call c : pres SC (client12_call E c).
Proof.
  destruct c; cbn [client12_call]; unfold no_output, some_output, client12_handle_packet,
    client12_poll_output, client12_handle_timeout, client12_send, client12_close, c_make_progress;
    presauto SC_po ltac:(first [apply lf_public | apply sa_c_progress | apply (lf_event _ SC_po)
      | apply sa_ceng; solve [presauto sa_po apileaf] | apply pres_modify; intro; split; reflexivity]).
Qed.
Lemma sa_server_call c : pres SS (server12_call E c).
Proof.
  destruct c; cbn [server12_call]; unfold no_output, some_output, server12_handle_packet,
    server12_poll_output, server12_handle_timeout, server12_send, server12_close, s_make_progress;
    presauto SS_po ltac:(first [apply lf_public | apply sa_s_progress | apply (lf_event _ SS_po)
      | apply sa_seng; solve [presauto sa_po apileaf] | apply pres_modify; intro; split; reflexivity]).
Qed.

Lemma reach_auth cfg auth h s : reach12 E cfg auth h s ->
  en_cfg (end_eng s) = cfg /\ k_auth (en_crypto (end_eng s)) = auth.
Proof.
  intros (s0 & H0 & H).
  assert (I0 : en_cfg (end_eng s0) = cfg /\ k_auth (en_crypto (end_eng s0)) = auth).
  { clear H. induction H0; cbn in *; auto. }
  induction H as [|h s c r s' H IH NP C]; [exact I0|]. destruct IH as [<- <-].
  destruct s as [x|x]; cbn [end12_call] in C.
  - pose proof (sa_client_call c x) as K. destruct (client12_call E c x). injection C as <- <-. exact K.
  - pose proof (sa_server_call c x) as K. destruct (server12_call E c x). injection C as <- <-. exact K.
Qed.
End Auth.
