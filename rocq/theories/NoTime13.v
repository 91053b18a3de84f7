(** DTLS 1.3: timeout errors come from [handle_timeout] only. *)
From Verif Require Import Prelude PreludeFacts Types Codec Codec12 Codec13 Record12 Record13 Env Config Aead Prf Monad MonadFacts
  Timer Window SeqRecon Engine12 Client12 Engine13 Client13 Server13 History12 History12Facts History13 Lift13 Wait12Proofs.

Ltac notos ::= repeat first [noto1 | solve [eauto with noto]].

Section NoTimeout.
Variable E : Env.
Lemma nt_draw13 : noto draw13. Proof. intros s k. discriminate. Qed.
Hint Resolve nt_draw13 : noto.
Lemma nt_rand13 n : noto (rand_bytes13 E n). Proof. unfold rand_bytes13. notos. Qed.
Hint Resolve nt_rand13 : noto.
Lemma nt_hash13 : noto hash_alg13. Proof. unfold hash_alg13. notos. Qed.
Lemma nt_prov13 : noto (suite_provider13 E). Proof. unfold suite_provider13. notos. Qed.
Hint Resolve nt_hash13 nt_prov13 : noto.
Lemma nt_enq13 b r : noto (enqueue13 b r). Proof. unfold enqueue13. notos. Qed.
Lemma nt_save13 e : noto (save13 e). Proof. unfold save13. notos. Qed.
Hint Resolve nt_enq13 nt_save13 : noto.
Lemma nt_plain13 ct b fr : noto (create_plain13 ct b fr). Proof. unfold create_plain13. notos. Qed.
Lemma nt_cipher13 ct ep b fr : noto (create_cipher13 E ct ep b fr). Proof. unfold create_cipher13. notos. Qed.
Hint Resolve nt_plain13 nt_cipher13 : noto.
Lemma nt_frag13 n : forall mt tot sq ep pr off rest, noto (frag_loop13 E n mt tot sq ep pr off rest).
Proof. induction n as [|n IH]; intros; cbn [frag_loop13]; notos. Qed.
Hint Resolve nt_frag13 : noto.
Lemma nt_ch13 mt mk : noto mk -> noto (create_handshake13 E mt mk).
Proof. intros. unfold create_handshake13. notos. Qed.
Ltac notos ::= repeat first [noto1 | solve [eauto with noto] | apply nt_ch13].
Lemma nt_fb13 : noto (flight_begin13 E). Proof. unfold flight_begin13. notos. Qed.
Lemma nt_stop13 : noto stop_timers13. Proof. unfold stop_timers13. notos. Qed.
Lemma nt_rl13 es : noto (resend_loop13 E es). Proof. induction es; cbn [resend_loop13]; notos. Qed.
Hint Resolve nt_fb13 nt_stop13 nt_rl13 : noto.
Lemma nt_resend13 : noto (flight_resend13 E). Proof. unfold flight_resend13. notos. Qed.
Lemma nt_ack13 b : noto (send_ack_inner E b). Proof. unfold send_ack_inner. notos. Qed.
Hint Resolve nt_resend13 nt_ack13 : noto.
Lemma nt_ack : noto (send_ack13 E). Proof. apply nt_ack13. Qed.
Lemma nt_ackr : noto (send_ack_retransmittable E). Proof. unfold send_ack_retransmittable. notos. Qed.
Hint Resolve nt_ack nt_ackr : noto.
Lemma nt_label h x l c n : noto (label13 E h x l c n). Proof. unfold label13. notos. Qed.
Lemma nt_extract h x l : noto (extract13 E h x l). Proof. unfold extract13. notos. Qed.
Hint Resolve nt_label nt_extract : noto.
Lemma nt_dek x : noto (derive_epoch_keys E x). Proof. unfold derive_epoch_keys. notos. Qed.
Lemma nt_th : noto (transcript_hash13 E). Proof. unfold transcript_hash13. notos. Qed.
Hint Resolve nt_dek nt_th : noto.
Lemma nt_dhs x : noto (derive_handshake_secrets E x). Proof. unfold derive_handshake_secrets. notos. Qed.
Lemma nt_ihk a b : noto (install_handshake_keys E a b). Proof. unfold install_handshake_keys. notos. Qed.
Lemma nt_das x : noto (derive_application_secrets E x). Proof. unfold derive_application_secrets. notos. Qed.
Lemma nt_push x : noto (push_recv x). Proof. unfold push_recv. notos. Qed.
Hint Resolve nt_dhs nt_ihk nt_das nt_push : noto.
Lemma nt_iak a b : noto (install_application_keys E a b). Proof. unfold install_application_keys. notos. Qed.
Lemma nt_dns x : noto (derive_next_secret E x). Proof. unfold derive_next_secret. notos. Qed.
Hint Resolve nt_iak nt_dns : noto.
Lemma nt_usk : noto (update_send_keys E). Proof. unfold update_send_keys. notos. Qed.
Lemma nt_urk : noto (update_recv_keys E). Proof. unfold update_recv_keys. notos. Qed.
Lemma nt_cku b : noto (create_key_update E b). Proof. unfold create_key_update. notos. Qed.
Lemma nt_cvd x : noto (compute_verify_data E x). Proof. unfold compute_verify_data. notos. Qed.
Lemma nt_rt n : noto (replace_transcript E n). Proof. unfold replace_transcript. notos. Qed.
Lemma nt_srtp n : noto (extract_srtp13 E n). Proof. unfold extract_srtp13. notos. Qed.
Hint Resolve nt_usk nt_urk nt_cku nt_cvd nt_rt nt_srtp : noto.
Lemma nt_unmask r : noto (unmask13 E r). Proof. unfold unmask13. notos. Qed.
Hint Resolve nt_unmask : noto.
Lemma nt_rp13 r : noto (rec_parse13 E r). Proof. unfold rec_parse13. notos. Qed.
Hint Resolve nt_rp13 : noto.
Lemma nt_pa d : noto (process_ack E d). Proof. unfold process_ack. notos. Qed.
Hint Resolve nt_pa : noto.
Lemma nt_cl13 r : noto (classify_record13 E r). Proof. unfold classify_record13. notos. Qed.
Hint Resolve nt_cl13 : noto.
Lemma nt_pl13 n : forall room p, noto (parse_loop13 E n room p).
Proof. induction n as [|n IH]; intros room [|b p]; cbn [parse_loop13]; notos. Qed.
Lemma nt_ca13 rs : noto (classify_all13 E rs). Proof. induction rs; cbn [classify_all13]; notos. Qed.
Hint Resolve nt_pl13 nt_ca13 : noto.
Lemma nt_bs13 cs : noto (bsearch13 E cs). Proof. unfold bsearch13. notos. Qed.
Hint Resolve nt_bs13 : noto.
Lemma nt_ih13 inc r h : noto (insert_handshake13 E inc r h). Proof. unfold insert_handshake13. notos. Qed.
Lemma nt_in13 inc r : noto (insert_non_handshake13 E inc r). Proof. unfold insert_non_handshake13. notos. Qed.
Hint Resolve nt_ih13 nt_in13 : noto.
Lemma nt_ii13 inc : noto (insert_incoming13 E inc). Proof. unfold insert_incoming13. notos. Qed.
Hint Resolve nt_ii13 : noto.
Lemma nt_parse13 p : noto (eng13_parse_packet E p). Proof. unfold eng13_parse_packet, records_parse13. notos. Qed.
Hint Resolve nt_parse13 : noto.
Lemma nt_epe13 : noto (enable_peer_encryption13 E). Proof. unfold enable_peer_encryption13. notos. Qed.
Lemma nt_nh13 a b w : noto (next_handshake13_gen a b w). Proof. unfold next_handshake13_gen. notos. Qed.
Lemma nt_adv : noto advance_peer. Proof. unfold advance_peer. notos. Qed.
Lemma nt_key p : noto (keying13 E p). Proof. destruct p as [n|]; [|apply noto_ret]. intros e k. cbn [keying13]. destruct (extract_srtp13 E n e) as [[?|?|?] ?]; discriminate. Qed.
Hint Resolve nt_epe13 nt_nh13 nt_adv nt_key : noto.
Lemma nt_cch a b c d : noto (create_client_hello13 E a b c d). Proof. unfold create_client_hello13. notos. Qed.
Lemma nt_cc13 x : noto (create_certificate13 x). Proof. unfold create_certificate13. notos. Qed.
Lemma nt_ccv x : noto (create_certificate_verify13 E x). Proof. unfold create_certificate_verify13. notos. Qed.
Lemma nt_vsc a b : noto (verify_scheme_curve E a b). Proof. unfold verify_scheme_curve. notos. Qed.
Hint Resolve nt_cch nt_cc13 nt_ccv nt_vsc : noto.
Lemma nt_chk a b c d e : noto (check_certificate_verify E a b c d e). Proof. unfold check_certificate_verify. notos. Qed.
Lemma nt_csh a b c d e : noto (create_server_hello13 a b c d e). Proof. unfold create_server_hello13. notos. Qed.
Hint Resolve nt_chk nt_csh : noto.
Lemma nt_flush now : noto (maybe_flush_ack E now). Proof. unfold maybe_flush_ack. notos. Qed.
Hint Resolve nt_flush : noto.
Ltac noeng := unfold xeng, yeng, take_needs_key_update, reset_for_hello_retry, release13, release13_retaining,
  next_handshake13, next_client_hello_auto, next_handshake13_no_transcript.
Lemma nt_hrr es : noto (hrr_extensions es). Proof. induction es as [|[? ?] es IH]; cbn [hrr_extensions]; notos. Qed.
Lemma nt_ee es : noto (ee13_extensions es). Proof. induction es as [|[? ?] es IH]; cbn [ee13_extensions]; notos. Qed.
Hint Resolve nt_hrr nt_ee : noto.
Lemma nt_x_step st : noto (x_step E st).
Proof.
  destruct st; cbn [x_step]; unfold x_send_client_hello, x_await_server_hello, x_hello_retry, x_server_hello,
      x_await_encrypted_extensions, x_await_certificate_request, x_await_certificate,
      x_await_certificate_verify, x_await_finished, x_send_certificate, x_send_certificate_verify,
      x_send_finished, x_await_application_data, x_half_closed_local; noeng; notos.
Qed.
Lemma nt_scan x es : forall k, ch13_scan x es <> Err (ETimeout k).
Proof.
  revert x. induction es as [|[t d] es IH]; intros x k; cbn [ch13_scan]; [discriminate|].
  repeat first [apply IH | discriminate | match goal with |- (if ?b then _ else _) <> _ => destruct b | |- match ?y with _ => _ end <> _ => destruct y end].
Qed.
Lemma nt_y_step st : noto (y_step E st).
Proof.
  destruct st; cbn [y_step]; unfold y_await_client_hello, y_select, y_accept_hello, y_retry, send_hello_retry, cookie13,
      y_send_server_hello, y_send_encrypted_extensions,
      y_send_certificate_request, y_send_certificate, y_send_certificate_verify, y_send_finished,
      y_await_certificate, y_await_certificate_verify, y_await_finished, y_await_application_data,
      y_half_closed_local; noeng;
    repeat first [ apply nt_ch13
      | lazymatch goal with
        | |- noto (match ch13_scan ?x ?es with _ => _ end) =>
            let H := fresh in pose proof (nt_scan x es) as H; destruct (ch13_scan x es); [|apply noto_fail; intros k ->; exact (H k eq_refl)|]
        | |- noto (fail (if ?b then _ else _)) => destruct b
        end
      | noto1 | solve [eauto with noto] ].
Qed.
Hint Resolve nt_x_step nt_y_step : noto.
Lemma nt_x_prog n : noto (x_progress E n). Proof. induction n; cbn [x_progress]; notos. Qed.
Lemma nt_y_prog n : noto (y_progress E n). Proof. induction n; cbn [y_progress]; notos. Qed.
Hint Resolve nt_x_prog nt_y_prog : noto.
Lemma nt_yproc p : noto (y_process E p). Proof. unfold y_process, y_make_progress. noeng. notos. Qed.
Hint Resolve nt_yproc : noto.

Lemma nt_poll13 cap now : noto (eng13_poll_output cap now).
Proof. unfold eng13_poll_output, poll_app_data13, poll_packet_tx13. notos. Qed.
Hint Resolve nt_poll13 : noto.
Lemma nt_event ev cap certs S : noto (event12_output ev cap certs : M S Output).
Proof. unfold event12_output. notos. Qed.
Hint Resolve nt_event : noto.
Lemma nt_call13 k s t : (forall now, k <> Tick now) -> fst (end13_call E k s) <> Err (ETimeout t).
Proof.
  intros NT. destruct s as [c|c]; cbn [end13_call].
  - assert (H : noto (client13_call E k)).
    { destruct k; cbn [client13_call]; unfold no_output, some_output, client13_handle_packet, client13_poll_output, client13_send, client13_close, x_make_progress, eng13_abort, cancel_flights;
        noeng; repeat first [noto1 | solve [eauto with noto] | apply nt_public]; try (exfalso; eapply NT; reflexivity). }
    specialize (H c t). destruct (client13_call E k c). exact H.
  - assert (H : noto (server13_call E k)).
    { destruct k; cbn [server13_call]; unfold no_output, some_output, server13_handle_packet, server13_poll_output, server13_send, server13_close, y_make_progress, eng13_abort, cancel_flights;
        noeng; repeat first [noto1 | solve [eauto with noto] | apply nt_public]; try (exfalso; eapply NT; reflexivity). }
    specialize (H c t). destruct (server13_call E k c). exact H.
Qed.
End NoTimeout.
