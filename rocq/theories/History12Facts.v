(** Lifting of engine facts to histories of a DTLS 1.2 endpoint. *)
From Verif Require Import Prelude Types Codec Codec12 Record12 Env Config Context12 Monad MonadFacts
  Timer Window Engine12 Client12 Server12 Engine12Frame History12.

(** What has to be shown of a preorder on engine states for it to hold between the
    engine states before and after every API call. *)
Record step_frame (E : Env) (R : Eng12 -> Eng12 -> Prop) : Prop := {
  ef_po : preorder R;
  ef_crypto : forall v s, R s (set_en_crypto v s);
  ef_orc : forall v s, R s (set_en_orc v s);
  ef_flight_begin : pres R (flight_begin E);
  ef_create_record : forall ct ep save f, pres R (create_record E ct ep save f);
  ef_create_handshake : forall mt mk, pres R mk -> pres R (create_handshake E mt mk);
  ef_next_handshake : forall w, pres R (next_handshake w);
  ef_next_record : forall w, pres R (next_record w);
  ef_drop_ccs : pres R drop_pending_ccs;
  ef_reset_server : pres R reset_server_for_hvr;
  ef_reset_client : pres R reset_client_for_hvr;
  ef_set_suite : forall cs, pres R (set_cipher_suite E cs);
  ef_enable_peer : pres R (enable_peer_encryption E);
  ef_flight_stop : pres R flight_stop_resend_timers;
  ef_release : pres R release_application_data;
  ef_discard : pres R discard_pending_writes }.
Record eng_frame (E : Env) (R : Eng12 -> Eng12 -> Prop) : Prop := {
  ef_step :> step_frame E R;
  ef_client : forall v s, R s (set_en_client v s);
  ef_abort : pres R eng12_abort;
  ef_parse : forall p, pres R (eng12_parse_packet E p);
  ef_poll : forall cap now, pres R (eng12_poll_output cap now);
  ef_timeout : forall now, pres R (eng12_handle_timeout E now) }.

Section StepLift.
Variable E : Env.
Variable R : Eng12 -> Eng12 -> Prop.
Hypothesis F : step_frame E R.
Let PO : preorder R := ef_po _ _ F.

Lemma lf_draw : pres R draw.
Proof. apply fr_draw; [exact PO|apply F]. Qed.
Lemma lf_rand n : pres R (rand_bytes E n).
Proof. apply fr_rand_bytes; [exact PO|apply F]. Qed.
Lemma lf_random_time n : pres R (random_with_time E n).
Proof. apply fr_random_with_time; [exact PO|apply F]. Qed.
Lemma lf_crypto_op f : pres R (crypto_op f).
Proof. apply fr_crypto_op; [exact PO|apply F]. Qed.
Lemma lf_gvd b : pres R (generate_verify_data E b).
Proof. apply fr_gvd; exact PO. Qed.

Ltac engleaf :=
  first [apply (ef_flight_begin _ _ F) | apply (ef_create_record _ _ F)
        | apply (ef_create_handshake _ _ F) | apply (ef_next_handshake _ _ F)
        | apply (ef_next_record _ _ F) | apply (ef_drop_ccs _ _ F) | apply (ef_reset_server _ _ F)
        | apply (ef_reset_client _ _ F) | apply (ef_set_suite _ _ F) | apply (ef_enable_peer _ _ F)
        | apply (ef_flight_stop _ _ F) | apply (ef_release _ _ F) | apply (ef_discard _ _ F)
        | apply lf_draw | apply lf_rand | apply lf_random_time
        | apply lf_crypto_op | apply lf_gvd
        | apply pres_modify; intro; apply (ef_crypto _ _ F)
        | apply pres_modify; intro; apply (ef_orc _ _ F) ].

Lemma lf_create_certificate : pres R create_certificate12.
Proof. unfold create_certificate12. presauto PO engleaf. Qed.
Lemma lf_create_ch a b c : pres R (create_client_hello E a b c).
Proof. unfold create_client_hello. presauto PO engleaf. Qed.
Lemma lf_create_cke : pres R create_client_key_exchange.
Proof. unfold create_client_key_exchange. presauto PO engleaf. Qed.
Lemma lf_create_cv : pres R (create_certificate_verify E).
Proof. unfold create_certificate_verify. presauto PO engleaf. Qed.
Lemma lf_create_sh a b : pres R (create_server_hello a b).
Proof. unfold create_server_hello. presauto PO engleaf. Qed.
Lemma lf_create_ske a b c d : pres R (create_server_key_exchange E a b c d).
Proof. unfold create_server_key_exchange. presauto PO engleaf. Qed.

Ltac mkleaf :=
  first [engleaf | apply lf_create_certificate | apply lf_create_ch | apply lf_create_cke
        | apply lf_create_cv | apply lf_create_sh | apply lf_create_ske ].

(** Client *)
Definition RC (a b : Client12) : Prop := R (cl_eng a) (cl_eng b).
Lemma RC_po : preorder RC.
Proof. split; unfold RC; intros; [apply PO|eapply PO; eauto]. Qed.
Lemma lf_ceng {A} (m : M Eng12 A) : pres R m -> pres RC (ceng m).
Proof. apply pres_zoom. auto. Qed.

Ltac cleaf :=
  first [ assumption
        | apply lf_ceng; solve [presauto PO mkleaf]
        | apply pres_modify; intro; unfold RC; cbn; apply PO ].

Lemma lf_sh12_extensions es : forall b, pres RC (sh12_extensions b es).
Proof.
  induction es as [|[t d] es IH]; intro b; cbn [sh12_extensions]; presauto RC_po ltac:(first [apply IH|cleaf]).
Qed.

Lemma lf_ske_ecdhe : pres RC (c_await_server_key_exchange_ecdhe E).
Proof. unfold c_await_server_key_exchange_ecdhe. presauto RC_po cleaf. Qed.
Lemma lf_ske_psk : pres RC c_await_server_key_exchange_psk.
Proof. unfold c_await_server_key_exchange_psk. presauto RC_po cleaf. Qed.

Lemma lf_c_step st : pres RC (c_step E st).
Proof.
  destruct st; cbn [c_step];
    unfold c_send_client_hello, c_await_hello_verify_request, c_await_server_hello,
      c_await_certificate, c_await_server_key_exchange, c_await_certificate_request,
      c_await_server_hello_done, c_send_certificate, c_send_client_key_exchange,
      c_send_certificate_verify, c_send_change_cipher_spec, c_derive_keys, c_send_finished,
      c_await_change_cipher_spec, c_await_new_session_ticket, c_await_finished,
      c_await_application_data;
    presauto RC_po ltac:(first [apply lf_sh12_extensions | apply lf_ske_ecdhe | apply lf_ske_psk | cleaf]).
Qed.

Lemma lf_c_progress n : pres RC (c_progress E n).
Proof.
  induction n as [|n IH]; cbn [c_progress]; presauto RC_po ltac:(first [apply lf_c_step | cleaf]).
Qed.

(** Server *)
Definition RS (a b : Server12) : Prop := R (sv_eng a) (sv_eng b).
Lemma RS_po : preorder RS.
Proof. split; unfold RS; intros; [apply PO|eapply PO; eauto]. Qed.
Lemma lf_seng {A} (m : M Eng12 A) : pres R m -> pres RS (seng m).
Proof. apply pres_zoom. auto. Qed.

Ltac sleaf :=
  first [ assumption
        | apply lf_seng; solve [presauto PO mkleaf]
        | apply pres_modify; intro; unfold RS; cbn; apply PO ].

Lemma lf_s_cke cs k : pres RS (s_process_cke E cs k).
Proof. unfold s_process_cke. presauto RS_po sleaf. Qed.
Lemma lf_s_ske_psk : pres RS (s_send_server_key_exchange_psk E).
Proof. unfold s_send_server_key_exchange_psk. presauto RS_po sleaf. Qed.

Lemma lf_s_step st : pres RS (s_step E st).
Proof.
  destruct st; cbn [s_step];
    unfold s_await_client_hello, s_send_server_hello, s_send_certificate,
      s_send_server_key_exchange, s_send_certificate_request, s_send_server_hello_done,
      s_await_certificate, s_await_client_key_exchange, s_await_certificate_verify,
      s_await_change_cipher_spec, s_await_finished, s_send_change_cipher_spec, s_send_finished,
      s_await_application_data;
    presauto RS_po ltac:(first [apply lf_s_cke | apply lf_s_ske_psk | sleaf]).
Qed.

Lemma lf_s_progress n : pres RS (s_progress E n).
Proof.
  induction n as [|n IH]; cbn [s_progress]; presauto RS_po ltac:(first [apply lf_s_step | sleaf]).
Qed.

End StepLift.

Lemma lf_public {S} (Q : S -> S -> Prop) m : pres Q m -> pres Q (public m).
Proof.
  intros H s. unfold public. specialize (H s). destruct (m s) as [[a|e|n] s']; try exact H.
  destruct e; exact H.
Qed.

Lemma lf_event {S} (Q : S -> S -> Prop) : preorder Q -> forall ev cap certs,
  pres Q (@event12_output S ev cap certs).
Proof. intros P ev cap certs. unfold event12_output. presauto P idtac. Qed.

Section Lift.
Variable E : Env.
Variable R : Eng12 -> Eng12 -> Prop.
Hypothesis F : eng_frame E R.
Let PO : preorder R := ef_po _ _ F.
Let RC := RC R.
Let RS := RS R.
Let RC_po : preorder RC := RC_po E R F.
Let RS_po : preorder RS := RS_po E R F.

Ltac engleaf :=
  first [apply (ef_create_record _ _ F)
        | apply (ef_abort _ _ F) | apply (ef_parse _ _ F) | apply (ef_poll _ _ F)
        | apply (ef_timeout _ _ F) | apply (lf_random_time E R F)].
Ltac cleaf :=
  first [ assumption
        | apply (lf_ceng R); solve [presauto PO engleaf]
        | apply pres_modify; intro; apply PO ].
Ltac sleaf :=
  first [ assumption
        | apply (lf_seng R); solve [presauto PO engleaf]
        | apply pres_modify; intro; apply PO ].

Lemma lf_client_call c : pres RC (client12_call E c).
Proof.
  destruct c; cbn [client12_call]; unfold no_output, some_output, client12_handle_packet,
    client12_poll_output, client12_handle_timeout, client12_send, client12_close, c_make_progress;
    presauto RC_po ltac:(first [apply lf_public | apply (lf_c_progress E R F)
                               | apply (lf_event _ RC_po) | cleaf]).
Qed.

Lemma lf_server_call c : pres RS (server12_call E c).
Proof.
  destruct c; cbn [server12_call]; unfold no_output, some_output, server12_handle_packet,
    server12_poll_output, server12_handle_timeout, server12_send, server12_close, s_make_progress;
    presauto RS_po ltac:(first [apply lf_public | apply (lf_s_progress E R F)
                               | apply (lf_event _ RS_po) | sleaf]).
Qed.

Lemma lf_end_call c s r s' : end12_call E c s = (r, s') -> R (end_eng s) (end_eng s').
Proof.
  destruct s as [x|x]; cbn [end12_call].
  - pose proof (lf_client_call c x) as H. destruct (client12_call E c x). intros [= <- <-]. exact H.
  - pose proof (lf_server_call c x) as H. destruct (server12_call E c x). intros [= <- <-]. exact H.
Qed.

Lemma lf_history s0 h s : history E s0 h s -> R (end_eng s0) (end_eng s).
Proof.
  induction 1 as [|h s c r s' H IH NP C]; [apply PO|].
  eapply PO; [exact IH|]. eapply lf_end_call; eauto.
Qed.

Lemma lf_start cfg auth s : start12 E cfg auth s -> R (eng12_new E cfg auth) (end_eng s).
Proof.
  induction 1; cbn in *.
  - eapply PO; [apply (ef_client _ _ F false)|]. apply (ef_orc _ _ F).
  - eapply PO; [eassumption|]. apply (ef_client _ _ F).
  - eapply PO; [eassumption|]. eapply PO; [apply (ef_client _ _ F false)|]. apply (ef_orc _ _ F).
Qed.

Lemma lf_reach cfg auth h s : reach12 E cfg auth h s -> R (eng12_new E cfg auth) (end_eng s).
Proof.
  intros (s0 & H0 & H). eapply PO; [eapply lf_start; eauto|eapply lf_history; eauto].
Qed.
End Lift.
