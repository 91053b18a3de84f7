(** What the state steps of the DTLS 1.2 endpoints do to the engine: the steps after
    the peer's ChangeCipherSpec touch no key, and only the step that waits for
    ChangeCipherSpec turns on receive protection. *)
From Verif Require Import Prelude PreludeFacts Types Codec Codec12 Record12 Monad MonadFacts Timer Env
  Config Aead Prf Window Context12 Engine12 Client12 Server12 Engine12Frame Send12Proofs History12
  History12Facts ClientInv12 ServerInv12.

Record late_frame (E : Env) (R : Eng12 -> Eng12 -> Prop) : Prop := {
  tf_po : preorder R;
  tf_orc : forall v s, R s (set_en_orc v s);
  tf_flight_begin : pres R (flight_begin E);
  tf_create_record : forall ct ep save f, pres R (create_record E ct ep save f);
  tf_create_handshake : forall mt mk, pres R mk -> pres R (create_handshake E mt mk);
  tf_next_handshake : forall w, pres R (next_handshake w);
  tf_next_record : forall w, pres R (next_record w);
  tf_drop_ccs : pres R drop_pending_ccs;
  tf_reset_server : pres R reset_server_for_hvr;
  tf_reset_client : pres R reset_client_for_hvr;
  tf_flight_stop : pres R flight_stop_resend_timers;
  tf_release : pres R release_application_data;
  tf_discard : pres R discard_pending_writes }.
Record mid_frame (E : Env) (R : Eng12 -> Eng12 -> Prop) : Prop := {
  mf_late :> late_frame E R;
  mf_crypto : forall v s, R s (set_en_crypto v s);
  mf_set_suite : forall cs, pres R (set_cipher_suite E cs) }.

Section LateLift.
Variable E : Env.
Variable R : Eng12 -> Eng12 -> Prop.
Hypothesis F : late_frame E R.
Let PO : preorder R := tf_po _ _ F.

Lemma tl_draw : pres R draw.
Proof. apply fr_draw; [exact PO|apply F]. Qed.
Lemma tl_rand n : pres R (rand_bytes E n).
Proof. apply fr_rand_bytes; [exact PO|apply F]. Qed.
Lemma tl_random_time n : pres R (random_with_time E n).
Proof. apply fr_random_with_time; [exact PO|apply F]. Qed.
Lemma tl_gvd b : pres R (generate_verify_data E b).
Proof. apply fr_gvd; exact PO. Qed.

Ltac engleaf :=
  first [apply (tf_flight_begin _ _ F) | apply (tf_create_record _ _ F)
        | apply (tf_create_handshake _ _ F) | apply (tf_next_handshake _ _ F)
        | apply (tf_next_record _ _ F) | apply (tf_drop_ccs _ _ F) | apply (tf_reset_server _ _ F)
        | apply (tf_reset_client _ _ F) 
        | apply (tf_flight_stop _ _ F) | apply (tf_release _ _ F) | apply (tf_discard _ _ F)
        | apply tl_draw | apply tl_rand | apply tl_random_time
        | apply tl_gvd
        
        | apply pres_modify; intro; apply (tf_orc _ _ F) ].


Ltac mkleaf :=
  first [engleaf ].

(** Client *)
Let RC : Client12 -> Client12 -> Prop := History12Facts.RC R.
Let RC_po : preorder RC.
Proof. split; unfold RC, History12Facts.RC; intros; [apply PO|eapply PO; eauto]. Qed.
Lemma tl_ceng {A} (m : M Eng12 A) : pres R m -> pres RC (ceng m).
Proof. apply pres_zoom. auto. Qed.

Ltac cleaf :=
  first [ assumption
        | apply tl_ceng; solve [presauto PO mkleaf]
        | apply pres_modify; intro; unfold RC, History12Facts.RC; cbn; apply PO ].



Lemma tl_c_step st : 11 <= c_rank st -> c_rank st <> 12 -> pres RC (c_step E st).
Proof.
  intros Hst Hn. destruct st; cbn [c_rank] in Hst, Hn; try (exfalso; lia); cbn [c_step];
    unfold c_send_client_hello, c_await_hello_verify_request, c_await_server_hello,
      c_await_certificate, c_await_server_key_exchange, c_await_certificate_request,
      c_await_server_hello_done, c_send_certificate, c_send_client_key_exchange,
      c_send_certificate_verify, c_send_change_cipher_spec, c_derive_keys, c_send_finished,
      c_await_change_cipher_spec, c_await_new_session_ticket, c_await_finished,
      c_await_application_data;
    presauto RC_po ltac:(first [   cleaf]).
Qed.


(** Server *)
Let RS : Server12 -> Server12 -> Prop := History12Facts.RS R.
Let RS_po : preorder RS.
Proof. split; unfold RS, History12Facts.RS; intros; [apply PO|eapply PO; eauto]. Qed.
Lemma tl_seng {A} (m : M Eng12 A) : pres R m -> pres RS (seng m).
Proof. apply pres_zoom. auto. Qed.

Ltac sleaf :=
  first [ assumption
        | apply tl_seng; solve [presauto PO mkleaf]
        | apply pres_modify; intro; unfold RS, History12Facts.RS; cbn; apply PO ].


Lemma tl_s_step st : 8 <= s_rank st -> s_rank st <> 9 -> pres RS (s_step E st).
Proof.
  intros Hst Hn. destruct st; cbn [s_rank] in Hst, Hn; try (exfalso; lia); cbn [s_step];
    unfold s_await_client_hello, s_send_server_hello, s_send_certificate,
      s_send_server_key_exchange, s_send_certificate_request, s_send_server_hello_done,
      s_await_certificate, s_await_client_key_exchange, s_await_certificate_verify,
      s_await_change_cipher_spec, s_await_finished, s_send_change_cipher_spec, s_send_finished,
      s_await_application_data;
    presauto RS_po ltac:(first [  sleaf]).
Qed.


End LateLift.

Section MidLift.
Variable E : Env.
Variable R : Eng12 -> Eng12 -> Prop.
Hypothesis F : mid_frame E R.
Let PO : preorder R := tf_po _ _ F.

Lemma ml_draw : pres R draw.
Proof. apply fr_draw; [exact PO|apply F]. Qed.
Lemma ml_rand n : pres R (rand_bytes E n).
Proof. apply fr_rand_bytes; [exact PO|apply F]. Qed.
Lemma ml_random_time n : pres R (random_with_time E n).
Proof. apply fr_random_with_time; [exact PO|apply F]. Qed.
Lemma ml_crypto_op f : pres R (crypto_op f).
Proof. apply fr_crypto_op; [exact PO|apply F]. Qed.
Lemma ml_gvd b : pres R (generate_verify_data E b).
Proof. apply fr_gvd; exact PO. Qed.

Ltac engleaf :=
  first [apply (tf_flight_begin _ _ F) | apply (tf_create_record _ _ F)
        | apply (tf_create_handshake _ _ F) | apply (tf_next_handshake _ _ F)
        | apply (tf_next_record _ _ F) | apply (tf_drop_ccs _ _ F) | apply (tf_reset_server _ _ F)
        | apply (tf_reset_client _ _ F) | apply (mf_set_suite _ _ F)
        | apply (tf_flight_stop _ _ F) | apply (tf_release _ _ F) | apply (tf_discard _ _ F)
        | apply ml_draw | apply ml_rand | apply ml_random_time
        | apply ml_crypto_op | apply ml_gvd
        | apply pres_modify; intro; apply (mf_crypto _ _ F)
        | apply pres_modify; intro; apply (tf_orc _ _ F) ].

Lemma ml_create_certificate : pres R create_certificate12.
Proof. unfold create_certificate12. presauto PO engleaf. Qed.
Lemma ml_create_ch a b c : pres R (create_client_hello E a b c).
Proof. unfold create_client_hello. presauto PO engleaf. Qed.
Lemma ml_create_cke : pres R create_client_key_exchange.
Proof. unfold create_client_key_exchange. presauto PO engleaf. Qed.
Lemma ml_create_cv : pres R (create_certificate_verify E).
Proof. unfold create_certificate_verify. presauto PO engleaf. Qed.
Lemma ml_create_sh a b : pres R (create_server_hello a b).
Proof. unfold create_server_hello. presauto PO engleaf. Qed.
Lemma ml_create_ske a b c d : pres R (create_server_key_exchange E a b c d).
Proof. unfold create_server_key_exchange. presauto PO engleaf. Qed.

Ltac mkleaf :=
  first [engleaf | apply ml_create_certificate | apply ml_create_ch | apply ml_create_cke
        | apply ml_create_cv | apply ml_create_sh | apply ml_create_ske ].

(** Client *)
Let RC : Client12 -> Client12 -> Prop := History12Facts.RC R.
Let RC_po : preorder RC.
Proof. split; unfold RC, History12Facts.RC; intros; [apply PO|eapply PO; eauto]. Qed.
Lemma ml_ceng {A} (m : M Eng12 A) : pres R m -> pres RC (ceng m).
Proof. apply pres_zoom. auto. Qed.

Ltac cleaf :=
  first [ assumption
        | apply ml_ceng; solve [presauto PO mkleaf]
        | apply pres_modify; intro; unfold RC, History12Facts.RC; cbn; apply PO ].

Lemma ml_sh12_extensions es : forall b, pres RC (sh12_extensions b es).
Proof.
  induction es as [|[t d] es IH]; intro b; cbn [sh12_extensions]; presauto RC_po ltac:(first [apply IH|cleaf]).
Qed.

Lemma ml_ske_ecdhe : pres RC (c_await_server_key_exchange_ecdhe E).
Proof. unfold c_await_server_key_exchange_ecdhe. presauto RC_po cleaf. Qed.
Lemma ml_ske_psk : pres RC c_await_server_key_exchange_psk.
Proof. unfold c_await_server_key_exchange_psk. presauto RC_po cleaf. Qed.

Lemma ml_c_step st : c_rank st <> 12 -> pres RC (c_step E st).
Proof.
  intro Hst. destruct st; try (exfalso; apply Hst; reflexivity); cbn [c_step];
    unfold c_send_client_hello, c_await_hello_verify_request, c_await_server_hello,
      c_await_certificate, c_await_server_key_exchange, c_await_certificate_request,
      c_await_server_hello_done, c_send_certificate, c_send_client_key_exchange,
      c_send_certificate_verify, c_send_change_cipher_spec, c_derive_keys, c_send_finished,
      c_await_change_cipher_spec, c_await_new_session_ticket, c_await_finished,
      c_await_application_data;
    presauto RC_po ltac:(first [apply ml_sh12_extensions | apply ml_ske_ecdhe | apply ml_ske_psk | cleaf]).
Qed.


(** Server *)
Let RS : Server12 -> Server12 -> Prop := History12Facts.RS R.
Let RS_po : preorder RS.
Proof. split; unfold RS, History12Facts.RS; intros; [apply PO|eapply PO; eauto]. Qed.
Lemma ml_seng {A} (m : M Eng12 A) : pres R m -> pres RS (seng m).
Proof. apply pres_zoom. auto. Qed.

Ltac sleaf :=
  first [ assumption
        | apply ml_seng; solve [presauto PO mkleaf]
        | apply pres_modify; intro; unfold RS, History12Facts.RS; cbn; apply PO ].

Lemma ml_s_cke cs k : pres RS (s_process_cke E cs k).
Proof. unfold s_process_cke. presauto RS_po sleaf. Qed.
Lemma ml_s_ske_psk : pres RS (s_send_server_key_exchange_psk E).
Proof. unfold s_send_server_key_exchange_psk. presauto RS_po sleaf. Qed.

Lemma ml_s_step st : s_rank st <> 9 -> pres RS (s_step E st).
Proof.
  intro Hst. destruct st; try (exfalso; apply Hst; reflexivity); cbn [s_step];
    unfold s_await_client_hello, s_send_server_hello, s_send_certificate,
      s_send_server_key_exchange, s_send_certificate_request, s_send_server_hello_done,
      s_await_certificate, s_await_client_key_exchange, s_await_certificate_verify,
      s_await_change_cipher_spec, s_await_finished, s_send_change_cipher_spec, s_send_finished,
      s_await_application_data;
    presauto RS_po ltac:(first [apply ml_s_cke | apply ml_s_ske_psk | sleaf]).
Qed.


End MidLift.
