(** Frame lemmas for the DTLS 1.3 engine: a preorder on engine states that every
    field update used by an operation respects is respected by the operation. *)
From Verif Require Import Prelude Types Codec Codec12 Codec13 Record12 Record13 Monad MonadFacts Timer
  Env Config Aead Prf Window SeqRecon Engine12 Engine13 Client13.

Ltac leaf13 := first [assumption | apply pres_modify; intro; solve [auto]
                     | match goal with H : _ |- _ => apply H end].
Ltac chain13 T :=
  first [ solve [auto]
        | match goal with H : _ |- ?R ?s (?f ?v ?x) => apply (T s x); [chain13 T | apply H] end ].

(** ** The basic operations, from the fields they update *)

Section Ops.
Variable E : Env.
Variable R : Eng13 -> Eng13 -> Prop.
Hypothesis PO : preorder R.
Let R_trans := po_trans R PO.

Hypothesis R_seq0 : forall v s, R s (set_g_seq0 v s).
Hypothesis R_rx : forall v s, R s (set_g_rx v s).
Hypothesis R_tx : forall v s, R s (set_g_tx v s).
Hypothesis R_hs_send : forall v s, R s (set_g_hs_send v s).
Hypothesis R_hs_recv : forall v s, R s (set_g_hs_recv v s).
Hypothesis R_hs_exp : forall v s, R s (set_g_hs_exp v s).
Hypothesis R_epoch : forall v s, R s (set_g_epoch v s).
Hypothesis R_hs_seq : forall v s, R s (set_g_hs_seq v s).
Hypothesis R_app_seq : forall v s, R s (set_g_app_seq v s).
Hypothesis R_app_send : forall v s, R s (set_g_app_send v s).
Hypothesis R_prev : forall v s, R s (set_g_prev v s).
Hypothesis R_prev_epoch : forall v s, R s (set_g_prev_epoch v s).
Hypothesis R_prev_seq : forall v s, R s (set_g_prev_seq v s).
Hypothesis R_recv : forall v s, R s (set_g_recv v s).
Hypothesis R_transcript : forall v s, R s (set_g_transcript v s).
Hypothesis R_hs_replay : forall v s, R s (set_g_hs_replay v s).
Hypothesis R_rrn : forall v s, R s (set_g_rrn v s).
Hypothesis R_ackdl : forall v s, R s (set_g_ackdl v s).
Hypothesis R_sealed : forall v s, R s (set_g_sealed v s).
Hypothesis R_saved : forall v s, R s (set_g_saved v s).
Hypothesis R_flight : forall v s, R s (set_g_flight v s).
Hypothesis R_connect : forall v s, R s (set_g_connect v s).
Hypothesis R_release : forall s, R s (set_g_release true s).
Hypothesis R_count : forall v s, R s (set_g_count v s).
Hypothesis R_thr : forall v s, R s (set_g_thr v s).
Hypothesis R_needs : forall v s, R s (set_g_needs v s).
Hypothesis R_inflight : forall v s, R s (set_g_inflight v s).
Hypothesis R_orc : forall v s, R s (set_g_orc v s).
Hypothesis R_exp : forall v s, R s (set_g_exp v s).

Ltac mods := apply pres_modify; let s := fresh "s" in intro s; chain13 R_trans.

Lemma op_draw13 : pres R draw13.
Proof using PO R_orc. intro s. apply R_orc. Qed.
Lemma op_rand13 n : pres R (rand_bytes13 E n).
Proof using PO R_orc. unfold rand_bytes13. presauto PO ltac:(first [apply op_draw13|leaf13]). Qed.
Lemma op_hash_alg : pres R hash_alg13.
Proof using PO. unfold hash_alg13. presauto PO leaf13. Qed.
Lemma op_suite_provider : pres R (suite_provider13 E).
Proof using PO. unfold suite_provider13. presauto PO leaf13. Qed.

Lemma op_unmask raw : pres R (unmask13 E raw).
Proof using PO. unfold unmask13. presauto PO ltac:(first [apply op_suite_provider|leaf13]). Qed.
Lemma op_rec_parse raw : pres R (rec_parse13 E raw).
Proof using PO R_hs_exp R_hs_replay R_recv.
  unfold rec_parse13. presauto PO ltac:(first [apply op_unmask|apply op_suite_provider|idtac]).
  apply pres_modify. intro s. unfold replay_update13. destruct (_ =? 2); chain13 R_trans.
Qed.

Lemma op_enqueue b rec : pres R (enqueue13 b rec).
Proof using PO R_tx R_sealed. unfold enqueue13. destruct b; mods. Qed.
Lemma op_save e : pres R (save13 e).
Proof using PO R_saved. unfold save13. presauto PO ltac:(first [mods|leaf13]). Qed.
Lemma op_create_plain ct sv fr : pres R (create_plain13 ct sv fr).
Proof using PO R_seq0 R_tx R_sealed R_saved.
  unfold create_plain13. presauto PO ltac:(first [apply op_save|apply op_enqueue|mods|leaf13]).
Qed.
(** Without the flight record store. *)
Lemma op_create_plain_unsaved ct fr : pres R (create_plain13 ct false fr).
Proof using PO R_seq0 R_tx R_sealed.
  unfold create_plain13. cbn [when]. presauto PO ltac:(first [apply op_enqueue|mods|leaf13]).
Qed.
Lemma op_bump c ep s : R s (bump_seq c ep s).
Proof using PO R_hs_seq R_prev_seq R_app_seq R_count R_needs.
  unfold bump_seq. destruct c; [chain13 R_trans..|]. cbv zeta. destruct (3 <=? ep); [|chain13 R_trans].
  destruct (_ <=? _); chain13 R_trans.
Qed.
Lemma op_create_cipher ct ep sv fr : pres R (create_cipher13 E ct ep sv fr).
Proof using PO R_hs_seq R_prev_seq R_app_seq R_count R_needs R_tx R_sealed R_saved.
  unfold create_cipher13.
  presauto PO ltac:(first [apply op_save|apply op_enqueue|apply op_suite_provider
    |apply pres_modify; intro; apply op_bump|leaf13]).
Qed.
Lemma op_create_cipher_unsaved ct ep fr : pres R (create_cipher13 E ct ep false fr).
Proof using PO R_hs_seq R_prev_seq R_app_seq R_count R_needs R_tx R_sealed.
  unfold create_cipher13. cbn [when].
  presauto PO ltac:(first [apply op_enqueue|apply op_suite_provider
    |apply pres_modify; intro; apply op_bump|leaf13]).
Qed.

Lemma op_label h a b c n : pres R (label13 E h a b c n).
Proof using PO. apply (pres_of_opt _ PO). Qed.
Lemma op_extract h a b : pres R (extract13 E h a b).
Proof using PO. apply (pres_of_opt _ PO). Qed.
Ltac kl := first [apply op_label|apply op_extract|apply op_hash_alg|apply op_suite_provider].
Lemma op_derive_epoch_keys sec : pres R (derive_epoch_keys E sec).
Proof using PO. unfold derive_epoch_keys. presauto PO ltac:(first [kl|leaf13]). Qed.
Lemma op_transcript_hash : pres R (transcript_hash13 E).
Proof using PO. unfold transcript_hash13. presauto PO ltac:(first [kl|leaf13]). Qed.
Lemma op_derive_hs x : pres R (derive_handshake_secrets E x).
Proof using PO. unfold derive_handshake_secrets. presauto PO ltac:(first [kl|apply op_transcript_hash|leaf13]). Qed.
Lemma op_derive_app x : pres R (derive_application_secrets E x).
Proof using PO R_exp. unfold derive_application_secrets. presauto PO ltac:(first [kl|apply op_transcript_hash|leaf13]). Qed.
Lemma op_next_secret x : pres R (derive_next_secret E x).
Proof using PO. unfold derive_next_secret. presauto PO ltac:(first [kl|leaf13]). Qed.
Lemma op_verify_data x : pres R (compute_verify_data E x).
Proof using PO. unfold compute_verify_data. presauto PO ltac:(first [kl|apply op_transcript_hash|leaf13]). Qed.
Lemma op_extract_srtp p : pres R (extract_srtp13 E p).
Proof using PO. unfold extract_srtp13. presauto PO ltac:(first [kl|leaf13]). Qed.
Lemma op_keying p : pres R (keying13 E p).
Proof using PO.
  unfold keying13. destruct p as [p|]; [|apply (pres_ret _ PO)]. intro s.
  pose proof (op_extract_srtp p s) as H. destruct (extract_srtp13 E p s) as [[km|e|n] s']; exact H.
Qed.

Lemma op_install_hs c sv : pres R (install_handshake_keys E c sv).
Proof using PO R_hs_send R_hs_recv R_hs_seq.
  unfold install_handshake_keys. presauto PO ltac:(first [apply op_derive_epoch_keys|mods|leaf13]).
Qed.
Lemma op_push_recv e : pres R (push_recv e).
Proof using PO R_recv. unfold push_recv. presauto PO ltac:(first [mods|leaf13]). Qed.
Lemma op_install_app c sv : pres R (install_application_keys E c sv).
Proof using PO R_app_send R_recv R_app_seq R_epoch.
  unfold install_application_keys.
  presauto PO ltac:(first [apply op_derive_epoch_keys|apply op_push_recv|mods|leaf13]).
Qed.
Lemma op_update_send : pres R (update_send_keys E).
Proof using PO R_app_send R_prev_seq R_prev_epoch R_prev R_count R_app_seq R_epoch R_needs R_thr R_orc.
  unfold update_send_keys.
  presauto PO ltac:(first [apply op_derive_epoch_keys|apply op_next_secret|apply op_draw13|mods|leaf13]).
Qed.
Lemma op_update_recv : pres R (update_recv_keys E).
Proof using PO R_recv.
  unfold update_recv_keys.
  presauto PO ltac:(first [apply op_derive_epoch_keys|apply op_next_secret|apply op_push_recv|mods|leaf13]).
Qed.
Lemma op_reset : pres R reset_for_hello_retry.
Proof using PO R_rx R_ackdl R_hs_seq. unfold reset_for_hello_retry. mods. Qed.
Lemma op_release : pres R release13.
Proof using PO R_release R_hs_recv. unfold release13. mods. Qed.
Lemma op_abort : pres R eng13_abort.
Proof using PO R_ackdl R_connect R_flight R_saved R_tx. unfold eng13_abort. mods. Qed.
Lemma op_cancel : pres R cancel_flights.
Proof using PO R_ackdl R_connect R_flight R_saved. unfold cancel_flights. mods. Qed.

Lemma op_next_hs a b mt : pres R (next_handshake13_gen a b mt).
Proof using PO R_rx R_transcript. unfold next_handshake13_gen. presauto PO ltac:(first [mods|leaf13]). Qed.
Lemma op_poll_app cap : pres R (poll_app_data13 cap).
Proof using PO R_rx. unfold poll_app_data13. presauto PO ltac:(first [mods|leaf13]). Qed.
Lemma op_poll_tx cap : pres R (poll_packet_tx13 cap).
Proof using PO R_tx. unfold poll_packet_tx13. presauto PO ltac:(first [mods|leaf13]). Qed.
Lemma op_insert_non inc r : pres R (insert_non_handshake13 E inc r).
Proof using PO R_rx R_orc.
  unfold insert_non_handshake13, bsearch13. presauto PO ltac:(first [apply op_draw13|mods|leaf13]).
Qed.
End Ops.

(** ** Compound operations *)

Section Frame.
Variable E : Env.
Variable R : Eng13 -> Eng13 -> Prop.
Hypothesis PO : preorder R.
Let R_trans := po_trans R PO.

Hypothesis R_orc : forall v s, R s (set_g_orc v s).
Hypothesis R_suite : forall v s, R s (set_g_suite v s).
Hypothesis R_penc : forall s, R s (set_g_penc true s).
Hypothesis R_peer_hs : forall v s, R s (set_g_peer_hs v s).
Hypothesis R_next_hs : forall v s, R s (set_g_next_hs v s).
Hypothesis R_transcript : forall v s, R s (set_g_transcript v s).
Hypothesis R_rrn : forall v s, R s (set_g_rrn v s).
Hypothesis R_ackdl : forall v s, R s (set_g_ackdl v s).
Hypothesis R_sealed : forall v s, R s (set_g_sealed v s).
Hypothesis R_saved : forall v s, R s (set_g_saved v s).
Hypothesis R_bo : forall v s, R s (set_g_bo v s).
Hypothesis R_flight : forall v s, R s (set_g_flight v s).
Hypothesis R_connect : forall v s, R s (set_g_connect v s).
Hypothesis R_release : forall s, R s (set_g_release true s).
Hypothesis R_inflight : forall v s, R s (set_g_inflight v s).
Hypothesis R_prev : forall s, R s (set_g_prev None s).
Hypothesis R_needs : forall s, R s (set_g_needs false s).
Hypothesis R_cn : forall v s, g_cn s = None -> R s (set_g_cn (Some v) s).
Hypothesis R_cn_rep : forall s, R s (set_g_cn_rep true s).
Hypothesis R_rx : forall v s, R s (set_g_rx v s).
Hypothesis H_plain : forall ct sv fr, pres R (create_plain13 ct sv fr).
Hypothesis H_cipher : forall ct ep sv fr, pres R (create_cipher13 E ct ep sv fr).
Hypothesis H_rec : forall raw, pres R (rec_parse13 E raw).
Hypothesis H_usk : pres R (update_send_keys E).
Hypothesis H_next : forall a b mt, pres R (next_handshake13_gen a b mt).
Hypothesis H_non : forall inc r, pres R (insert_non_handshake13 E inc r).
Hypothesis H_poll_app : forall cap, pres R (poll_app_data13 cap).
Hypothesis H_poll_tx : forall cap, pres R (poll_packet_tx13 cap).

Ltac mods := apply pres_modify; let s := fresh "s" in intro s; chain13 R_trans.

Lemma fr_draw13 : pres R draw13.
Proof using PO R_orc. apply op_draw13; assumption. Qed.
Lemma fr_take_needs : pres R take_needs_key_update.
Proof using PO R_needs. unfold take_needs_key_update. presauto PO leaf13. Qed.
Lemma fr_frag_loop13 fuel mt total seq ep prot : forall off rest,
  pres R (frag_loop13 E fuel mt total seq ep prot off rest).
Proof using PO H_plain H_cipher.
  induction fuel as [|fuel IH]; intros off rest; cbn [frag_loop13]; presauto PO leaf13.
Qed.
Lemma fr_create_handshake13 mt mk : pres R mk -> pres R (create_handshake13 E mt mk).
Proof using PO H_plain H_cipher R_transcript R_next_hs.
  intros H. unfold create_handshake13.
  presauto PO ltac:(first [apply fr_frag_loop13|apply (op_suite_provider E _ PO)|leaf13]).
Qed.
Lemma fr_flight_begin13 : pres R (flight_begin13 E).
Proof using PO R_orc R_flight R_saved R_bo.
  unfold flight_begin13. presauto PO ltac:(first [apply fr_draw13|mods]).
Qed.
Lemma fr_stop_timers13 : pres R stop_timers13.
Proof using PO R_flight R_connect. unfold stop_timers13. mods. Qed.
Lemma fr_resend_loop13 es : pres R (resend_loop13 E es).
Proof using PO H_plain H_cipher. induction es as [|e es IH]; cbn [resend_loop13]; presauto PO leaf13. Qed.
Lemma fr_flight_resend13 : pres R (flight_resend13 E).
Proof using PO H_plain H_cipher R_sealed R_saved.
  unfold flight_resend13. presauto PO ltac:(first [apply fr_resend_loop13|mods]).
Qed.
Lemma fr_send_ack_inner sv : pres R (send_ack_inner E sv).
Proof using PO H_cipher R_rrn. unfold send_ack_inner. presauto PO leaf13. Qed.
Lemma fr_send_ack13 : pres R (send_ack13 E).
Proof using PO H_cipher R_rrn. apply fr_send_ack_inner. Qed.
Lemma fr_send_ack_retransmittable : pres R (send_ack_retransmittable E).
Proof using PO H_cipher R_rrn R_saved.
  unfold send_ack_retransmittable. presauto PO ltac:(first [apply fr_send_ack_inner|leaf13]).
Qed.
Lemma fr_create_key_update b : pres R (create_key_update E b).
Proof using PO H_cipher R_orc R_flight R_saved R_bo R_next_hs R_inflight.
  unfold create_key_update. presauto PO ltac:(first [apply fr_flight_begin13|leaf13]).
Qed.
Lemma fr_replace_transcript n : pres R (replace_transcript E n).
Proof using PO R_transcript. unfold replace_transcript. presauto PO ltac:(first [apply (op_hash_alg _ PO)|leaf13]). Qed.

Lemma fr_process_ack d : pres R (process_ack E d).
Proof using PO R_saved R_flight R_inflight R_prev H_usk.
  unfold process_ack. presauto PO ltac:(first [exact H_usk|mods]).
Qed.
Hypothesis H_ack : forall d, pres R (process_ack E d).
Lemma fr_classify13 r : pres R (classify_record13 E r).
Proof using PO H_ack R_cn.
  unfold classify_record13. presauto PO ltac:(first [apply H_ack|idtac]).
  apply pres_modify. intro s. destruct (g_cn s) eqn:Hc; [apply (po_refl _ PO)|apply R_cn, Hc].
Qed.
Lemma fr_classify_all13 rs : pres R (classify_all13 E rs).
Proof using PO H_ack R_cn.
  induction rs as [|r rs IH]; cbn [classify_all13]; presauto PO ltac:(first [apply fr_classify13|leaf13]).
Qed.
Lemma fr_parse_loop13 fuel : forall room p, pres R (parse_loop13 E fuel room p).
Proof using PO H_rec.
  induction fuel as [|fuel IH]; intros room p; cbn [parse_loop13]; presauto PO leaf13.
Qed.
Lemma fr_records_parse13 p : pres R (records_parse13 E p).
Proof using PO H_rec H_ack R_cn.
  unfold records_parse13. presauto PO ltac:(first [apply fr_parse_loop13|apply fr_classify_all13]).
Qed.
Lemma fr_insert_hs13 inc r h : pres R (insert_handshake13 E inc r h).
Proof using PO H_plain H_cipher R_sealed R_saved R_rx R_rrn R_orc.
  unfold insert_handshake13, bsearch13.
  presauto PO ltac:(first [apply fr_flight_resend13|apply fr_draw13|mods|leaf13]).
Qed.
Lemma fr_insert13 inc : (forall r h, pres R (insert_handshake13 E inc r h)) -> pres R (insert_incoming13 E inc).
Proof using PO H_non. intros H. unfold insert_incoming13. presauto PO leaf13. Qed.
Lemma fr_parse_packet13 p : (forall inc r h, pres R (insert_handshake13 E inc r h)) -> pres R (eng13_parse_packet E p).
Proof using PO H_rec H_ack R_cn H_non.
  intros H. unfold eng13_parse_packet. presauto PO ltac:(first [apply fr_records_parse13|apply fr_insert13; apply H]).
Qed.
Lemma fr_enable_peer13 : (forall inc r h, pres R (insert_handshake13 E inc r h)) ->
  pres R (enable_peer_encryption13 E).
Proof using PO H_rec H_ack R_cn H_non R_penc R_rx.
  intros H. unfold enable_peer_encryption13.
  presauto PO ltac:(first [apply fr_parse_packet13; apply H|mods|leaf13]).
Qed.
Lemma fr_advance_peer : pres R advance_peer.
Proof using PO R_peer_hs. unfold advance_peer. mods. Qed.
Lemma fr_schedule now s : R s (maybe_schedule_ack now s).
Proof using PO R_ackdl.
  unfold maybe_schedule_ack. destruct (negb (handshake_in_progress s)); [apply R_ackdl|].
  destruct (is_some _); [apply (po_refl _ PO)|]. destruct (negb _); [apply (po_refl _ PO)|apply R_ackdl].
Qed.
Lemma fr_flush now : pres R (maybe_flush_ack E now).
Proof using PO R_ackdl H_cipher. unfold maybe_flush_ack. presauto PO leaf13. Qed.
Lemma fr_handle_timeout13 now : pres R (eng13_handle_timeout E now).
Proof using PO R_ackdl H_cipher H_plain R_sealed R_saved R_connect R_flight R_bo R_orc.
  unfold eng13_handle_timeout.
  presauto PO ltac:(first [apply fr_flush|apply fr_flight_resend13|apply fr_draw13|mods
    |apply pres_modify; intro; apply fr_schedule|leaf13]).
Qed.
Lemma fr_poll_output13 cap now : (forall s, R s (set_g_rx (purge_handled (g_rx s)) s)) ->
  pres R (eng13_poll_output cap now).
Proof using PO H_poll_app H_poll_tx R_ackdl R_cn_rep.
  intros H. unfold eng13_poll_output.
  presauto PO ltac:(first [apply H_poll_app|apply H_poll_tx|apply pres_modify; intro; apply H
    |apply pres_modify; intro; apply fr_schedule|leaf13]).
Qed.
Lemma fr_release_ret : pres R release13_retaining.
Proof using PO R_release. unfold release13_retaining. mods. Qed.
Lemma fr_cancel_flights : pres R cancel_flights.
Proof using PO R_ackdl R_connect R_flight R_saved. unfold cancel_flights. mods. Qed.

(** ** Message bodies, client.rs *)
Lemma fr_create_ch13 a b c d : pres R (create_client_hello13 E a b c d).
Proof using PO. unfold create_client_hello13. presauto PO leaf13. Qed.
Lemma fr_create_cert13 a : pres R (create_certificate13 a).
Proof using PO. unfold create_certificate13. presauto PO leaf13. Qed.
Lemma fr_create_cv13 a : pres R (create_certificate_verify13 E a).
Proof using PO R_orc.
  unfold create_certificate_verify13. presauto PO ltac:(first [apply (op_transcript_hash E _ PO)|apply fr_draw13|leaf13]).
Qed.
Lemma fr_check_cv13 a b c d e : pres R (check_certificate_verify E a b c d e).
Proof using PO. unfold check_certificate_verify, verify_scheme_curve. presauto PO leaf13. Qed.
End Frame.
