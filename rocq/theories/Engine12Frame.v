(** Frame lemmas for the DTLS 1.2 engine: a preorder on engine states that every
    field update used by an operation respects is respected by the operation. *)
From Verif Require Import Prelude Types Codec Codec12 Record12 Monad MonadFacts Timer Env Config
  Aead Prf Window Context12 Engine12 Client12.

Ltac leaf := first [assumption | apply pres_modify; intro; solve [auto]
                   | match goal with H : _ |- _ => apply H end].

(** [R s (set1 (set2 (... s)))] from the hypotheses about single updates. *)
Ltac chain T :=
  first [ solve [auto]
        | match goal with H : _ |- ?R ?s (?f ?v ?x) => apply (T s x); [chain T | apply H] end ].

Section Frame.
Variable E : Env.
Variable R : Eng12 -> Eng12 -> Prop.
Hypothesis PO : preorder R.
Let R_trans := po_trans R PO.

Hypothesis R_seq0 : forall v s, R s (set_en_seq0 v s).
Hypothesis R_seqn : forall v s, R s (set_en_seqn v s).
Hypothesis R_rx : forall v s, R s (set_en_rx v s).
Hypothesis R_tx : forall v s, R s (set_en_tx v s).
Hypothesis R_suite : forall v a b s, R s (set_en_suite v (set_en_minp a (set_en_enl b s))).
Hypothesis R_crypto : forall v s, R s (set_en_crypto v s).
Hypothesis R_penc : forall v s, R s (set_en_penc v s).
Hypothesis R_peer_hs : forall v s, R s (set_en_peer_hs v s).
Hypothesis R_next_hs : forall v s, R s (set_en_next_hs v s).
Hypothesis R_transcript : forall v s, R s (set_en_transcript v s).
Hypothesis R_replay : forall v s, R s (set_en_replay v s).
Hypothesis R_saved : forall v s, R s (set_en_saved v s).
Hypothesis R_bo : forall v s, R s (set_en_bo v s).
Hypothesis R_flight : forall v s, R s (set_en_flight v s).
Hypothesis R_connect : forall v s, R s (set_en_connect v s).
Hypothesis R_release : forall s, R s (set_en_release true s).
Hypothesis R_confirmed : forall s, R s (set_en_confirmed true s).
Hypothesis R_cn_recv : forall s, R s (set_en_cn_recv true s).
Hypothesis R_cn_rep : forall s, R s (set_en_cn_rep true s).
Hypothesis R_orc : forall v s, R s (set_en_orc v s).

Lemma fr_draw : pres R draw.
Proof using PO R_orc. unfold draw. presauto PO leaf. Qed.

Lemma fr_rand_bytes n : pres R (rand_bytes E n).
Proof using PO R_orc.
  unfold rand_bytes. presauto PO ltac:(first [apply fr_draw | leaf]).
Qed.

Lemma fr_random_with_time now : pres R (random_with_time E now).
Proof using PO R_orc.
  unfold random_with_time. presauto PO ltac:(first [apply fr_rand_bytes | leaf]).
Qed.

Lemma fr_crypto_op f : pres R (crypto_op f).
Proof using PO R_crypto. intro s. unfold crypto_op. destruct (f (en_crypto s)). apply R_crypto. Qed.

Lemma fr_decryption r : pres R (decryption_aad_and_nonce r).
Proof using PO. unfold decryption_aad_and_nonce. presauto PO leaf. Qed.

Lemma fr_rec_parse raw : pres R (rec_parse E raw).
Proof using PO R_replay R_confirmed.
  unfold rec_parse. presauto PO ltac:(first [apply fr_decryption | leaf]).
Qed.

Lemma fr_classify r : pres R (classify_record r).
Proof using PO R_cn_recv. unfold classify_record. presauto PO leaf. Qed.

Lemma fr_classify_all rs : pres R (classify_all rs).
Proof using PO R_cn_recv.
  induction rs as [|r rs IH]; cbn [classify_all]; [apply (pres_ret _ PO)|].
  presauto PO ltac:(first [apply fr_classify | leaf]).
Qed.

Lemma fr_parse_loop fuel : forall room p, pres R (parse_loop E fuel room p).
Proof using PO R_replay R_confirmed.
  induction fuel as [|fuel IH]; intros room p; cbn [parse_loop];
    presauto PO ltac:(first [apply fr_rec_parse | leaf]).
Qed.

Lemma fr_records_parse p : pres R (records_parse E p).
Proof using PO R_replay R_confirmed R_cn_recv.
  unfold records_parse.
  presauto PO ltac:(first [apply fr_parse_loop | apply fr_classify_all | leaf]).
Qed.

Lemma fr_seal_record ct seq f : pres R (seal_record E ct seq f).
Proof using PO R_orc.
  unfold seal_record. presauto PO ltac:(first [apply fr_rand_bytes | leaf]).
Qed.

Lemma fr_create_record_inner ct ep save fn f : (save = false \/ forall v s, R s (set_en_saved v s)) ->
  pres R (create_record_inner E ct ep save fn f).
Proof using PO R_orc R_seq0 R_seqn R_tx.
  clear R_saved. intros [-> | Hs]; unfold create_record_inner; cbn [when];
    presauto PO ltac:(first [apply fr_seal_record | leaf]).
Qed.

Lemma fr_create_record ct ep save f : pres R (create_record E ct ep save f).
Proof using PO R_orc R_seq0 R_seqn R_tx R_saved. apply fr_create_record_inner. auto. Qed.

Lemma fr_frag_loop fuel mt total seq ep prot : forall off rest,
  pres R (frag_loop E fuel mt total seq ep prot off rest).
Proof using PO R_orc R_seq0 R_seqn R_tx R_saved.
  induction fuel as [|fuel IH]; intros off rest; cbn [frag_loop];
    presauto PO ltac:(first [apply fr_create_record | leaf]).
Qed.

Lemma fr_create_handshake mt mk : pres R mk -> pres R (create_handshake E mt mk).
Proof using PO R_orc R_seq0 R_seqn R_tx R_saved R_transcript R_next_hs.
  intros H. unfold create_handshake.
  presauto PO ltac:(first [apply fr_create_record | apply fr_frag_loop | leaf]).
Qed.

Lemma fr_flight_begin : pres R (flight_begin E).
Proof using PO R_orc R_flight R_saved R_bo.
  unfold flight_begin. presauto PO ltac:(first [apply fr_draw | idtac]).
  apply pres_modify. intro s. chain R_trans.
Qed.

Lemma fr_flight_stop : pres R flight_stop_resend_timers.
Proof using PO R_flight R_connect R_confirmed.
  unfold flight_stop_resend_timers. presauto PO ltac:(first [leaf | idtac]).
  apply pres_modify. intro s. chain R_trans.
Qed.

Lemma fr_resend_loop rp es : forall first_, pres R (resend_loop E rp first_ es).
Proof using PO R_orc R_seq0 R_seqn R_tx.
  induction es as [|[[ct ep] f] es IH]; intro first_; cbn [resend_loop];
    presauto PO ltac:(first [apply fr_create_record_inner; left; reflexivity | leaf]).
Qed.

Lemma fr_flight_resend : pres R (flight_resend E).
Proof using PO R_orc R_seq0 R_seqn R_tx.
  unfold flight_resend. presauto PO ltac:(first [apply fr_resend_loop | leaf]).
Qed.

Lemma fr_handle_timeout now : pres R (eng12_handle_timeout E now).
Proof using PO R_orc R_seq0 R_seqn R_tx R_connect R_flight R_bo.
  unfold eng12_handle_timeout.
  presauto PO ltac:(first [apply fr_draw | apply fr_flight_resend | leaf]).
Qed.

Lemma fr_bsearch cs : pres R (bsearch E cs).
Proof using PO R_orc. unfold bsearch. presauto PO ltac:(first [apply fr_draw | leaf]). Qed.

Lemma fr_insert_hs inc r h : pres R (insert_incoming_handshake E inc r h).
Proof using PO R_orc R_seq0 R_seqn R_tx R_rx.
  unfold insert_incoming_handshake.
  presauto PO ltac:(first [apply fr_flight_resend | apply fr_bsearch | leaf]).
Qed.

Lemma fr_insert_non_hs inc r : pres R (insert_incoming_non_handshake E inc r).
Proof using PO R_orc R_rx.
  unfold insert_incoming_non_handshake. presauto PO ltac:(first [apply fr_bsearch | leaf]).
Qed.

Lemma fr_insert inc : pres R (insert_incoming E inc).
Proof using PO R_orc R_seq0 R_seqn R_tx R_rx.
  unfold insert_incoming.
  presauto PO ltac:(first [apply fr_insert_hs | apply fr_insert_non_hs | leaf]).
Qed.

Lemma fr_parse_packet p : pres R (eng12_parse_packet E p).
Proof using PO R_orc R_seq0 R_seqn R_tx R_rx R_replay R_confirmed R_cn_recv.
  unfold eng12_parse_packet.
  presauto PO ltac:(first [apply fr_insert | apply fr_records_parse | leaf]).
Qed.

Lemma fr_next_handshake w : pres R (next_handshake w).
Proof using PO R_rx R_transcript R_peer_hs. unfold next_handshake. presauto PO leaf. Qed.

Lemma fr_next_record w : pres R (next_record w).
Proof using PO R_rx. unfold next_record. presauto PO leaf. Qed.

Lemma fr_drop_ccs : pres R drop_pending_ccs.
Proof using PO R_rx. unfold drop_pending_ccs. presauto PO leaf. Qed.

Lemma fr_poll_app cap : pres R (poll_app_data cap).
Proof using PO R_rx. unfold poll_app_data. presauto PO leaf. Qed.

Lemma fr_poll_tx cap : pres R (poll_packet_tx cap).
Proof using PO R_tx. unfold poll_packet_tx. presauto PO leaf. Qed.

Lemma fr_poll_output cap now : pres R (eng12_poll_output cap now).
Proof using PO R_rx R_tx R_cn_rep.
  unfold eng12_poll_output.
  presauto PO ltac:(first [apply fr_poll_app | apply fr_poll_tx | leaf]).
Qed.

Lemma fr_release : pres R release_application_data.
Proof using PO R_release. unfold release_application_data. presauto PO leaf. Qed.

Lemma fr_discard : pres R discard_pending_writes.
Proof using PO R_tx. unfold discard_pending_writes. presauto PO leaf. Qed.

Lemma fr_abort : pres R eng12_abort.
Proof using PO R_tx R_saved R_flight R_connect.
  unfold eng12_abort. apply pres_modify. intro s. chain R_trans.
Qed.

Lemma fr_reset_server : pres R reset_server_for_hvr.
Proof using PO R_rx R_transcript. unfold reset_server_for_hvr. apply pres_modify. intro s. chain R_trans. Qed.

Lemma fr_reset_client : pres R reset_client_for_hvr.
Proof using PO R_transcript. unfold reset_client_for_hvr. presauto PO leaf. Qed.

Lemma fr_set_suite cs : pres R (set_cipher_suite E cs).
Proof using PO R_suite. unfold set_cipher_suite. presauto PO leaf. Qed.

Lemma fr_enable_peer : pres R (enable_peer_encryption E).
Proof using PO R_orc R_seq0 R_seqn R_tx R_rx R_replay R_confirmed R_cn_recv R_penc.
  unfold enable_peer_encryption.
  presauto PO ltac:(first [apply fr_parse_packet | leaf]).
Qed.

Lemma fr_gvd b : pres R (generate_verify_data E b).
Proof using PO. unfold generate_verify_data. presauto PO leaf. Qed.

End Frame.

(** The same for relations about the send queue and the counters, from a proof for
    [create_record_inner]. *)
Section Frame2.
Variable E : Env.
Variable R : Eng12 -> Eng12 -> Prop.
Hypothesis PO : preorder R.
Let R_trans := po_trans R PO.
Hypothesis H_cri : forall ct ep save fn f, pres R (create_record_inner E ct ep save fn f).
Hypothesis R_tx_nil : forall s, R s (set_en_tx [] s).
Hypothesis R_rx : forall v s, R s (set_en_rx v s).
Hypothesis R_penc : forall v s, R s (set_en_penc v s).
Hypothesis R_next_hs : forall v s, R s (set_en_next_hs v s).
Hypothesis R_transcript : forall v s, R s (set_en_transcript v s).
Hypothesis R_replay : forall v s, R s (set_en_replay v s).
Hypothesis R_bo : forall v s, R s (set_en_bo v s).
Hypothesis R_flight : forall v s, R s (set_en_flight v s).
Hypothesis R_connect : forall v s, R s (set_en_connect v s).
Hypothesis R_confirmed : forall s, R s (set_en_confirmed true s).
Hypothesis R_cn_recv : forall s, R s (set_en_cn_recv true s).
Hypothesis R_orc : forall v s, R s (set_en_orc v s).

Lemma fr2_create_record ct ep save f : pres R (create_record E ct ep save f).
Proof using H_cri. apply H_cri. Qed.

Lemma fr2_frag_loop fuel mt total seq ep prot : forall off rest,
  pres R (frag_loop E fuel mt total seq ep prot off rest).
Proof using PO H_cri.
  induction fuel as [|fuel IH]; intros off rest; cbn [frag_loop];
    presauto PO ltac:(first [apply fr2_create_record | leaf]).
Qed.

Lemma fr2_create_handshake mt mk : pres R mk -> pres R (create_handshake E mt mk).
Proof using PO H_cri R_transcript R_next_hs.
  intros H. unfold create_handshake.
  presauto PO ltac:(first [apply fr2_create_record | apply fr2_frag_loop | leaf]).
Qed.

Lemma fr2_resend_loop rp es : forall first_, pres R (resend_loop E rp first_ es).
Proof using PO H_cri.
  induction es as [|[[ct ep] f] es IH]; intro first_; cbn [resend_loop];
    presauto PO ltac:(first [apply H_cri | leaf]).
Qed.

Lemma fr2_flight_resend : pres R (flight_resend E).
Proof using PO H_cri R_tx_nil.
  unfold flight_resend. presauto PO ltac:(first [apply fr2_resend_loop | leaf]).
Qed.

Lemma fr2_handle_timeout now : pres R (eng12_handle_timeout E now).
Proof using PO H_cri R_tx_nil R_orc R_connect R_flight R_bo.
  unfold eng12_handle_timeout.
  presauto PO ltac:(first [apply (fr_draw _ PO R_orc) | apply fr2_flight_resend | leaf]).
Qed.

Lemma fr2_insert_hs inc r h : pres R (insert_incoming_handshake E inc r h).
Proof using PO H_cri R_tx_nil R_orc R_rx.
  unfold insert_incoming_handshake.
  presauto PO ltac:(first [apply fr2_flight_resend | apply (fr_bsearch _ _ PO R_orc) | leaf]).
Qed.

Lemma fr2_insert inc : pres R (insert_incoming E inc).
Proof using PO H_cri R_tx_nil R_orc R_rx.
  unfold insert_incoming.
  presauto PO ltac:(first [apply fr2_insert_hs | apply (fr_insert_non_hs _ _ PO R_rx R_orc) | leaf]).
Qed.

Lemma fr2_parse_packet p : pres R (eng12_parse_packet E p).
Proof using PO H_cri R_tx_nil R_orc R_rx R_replay R_confirmed R_cn_recv.
  unfold eng12_parse_packet.
  presauto PO ltac:(first [apply fr2_insert
    | apply (fr_records_parse _ _ PO R_replay R_confirmed R_cn_recv) | leaf]).
Qed.

Lemma fr2_enable_peer : pres R (enable_peer_encryption E).
Proof using PO H_cri R_tx_nil R_orc R_rx R_replay R_confirmed R_cn_recv R_penc.
  unfold enable_peer_encryption.
  presauto PO ltac:(first [apply fr2_parse_packet | leaf]).
Qed.
End Frame2.
