(** Frame lemmas for the fields of the DTLS 1.2 client and server outside the
    engine: a preorder that engine changes do not disturb. *)
From Verif Require Import Prelude Types Codec Codec12 Record12 Env Config Context12 Monad MonadFacts
  Timer Window Engine12 Client12 Server12 Engine12Frame History12 History12Facts.

Section ClientFrame.
Variable E : Env.
Variable R : Client12 -> Client12 -> Prop.
Hypothesis PO : preorder R.
Hypothesis R_eng : forall v c, R c (set_cl_eng v c).
Hypothesis R_state : forall v c, R c (set_cl_state v c).
Hypothesis R_random : forall v c, R c (set_cl_random v c).
Hypothesis R_now : forall v c, R c (set_cl_now v c).
Hypothesis R_event_tl : forall ev l c, cl_events c = ev :: l -> R c (set_cl_events l c).
Hypothesis R_queue : forall d c, R c (set_cl_queued (cl_queued c ++ [d]) c).
Hypothesis R_step : forall st, pres R (c_step E st).

Lemma cf_eng {A} (m : M Eng12 A) : pres R (ceng m).
Proof using R_eng. intro c. unfold ceng, zoom. destruct (m (cl_eng c)). apply R_eng. Qed.

Lemma cf_progress n : pres R (c_progress E n).
Proof using PO R_step R_state.
  induction n as [|n IH]; cbn [c_progress];
    presauto PO ltac:(first [apply R_step | apply pres_modify; intro; apply R_state | exact IH]).
Qed.

Lemma cf_call c : pres R (client12_call E c).
Proof using All.
  destruct c; cbn [client12_call]; unfold no_output, some_output, client12_handle_packet,
    client12_handle_timeout, client12_send, client12_close, c_make_progress;
    try (presauto PO ltac:(first [apply lf_public | apply cf_progress | apply cf_eng
      | apply pres_modify; intro; first [apply R_state|apply R_random|apply R_now|apply R_queue]])).
  - intro c. unfold client12_poll_output.
    apply (wp_bind get _ (fun _ c' => R c c')), wp_get. destruct (cl_events c) as [|ev l] eqn:He.
    + apply cf_eng.
    + apply wp_bind, wp_modify.
      eapply wp_mono; [apply (wp_pres R), (lf_event _ PO)|].
      intros r s' H. eapply PO; [eapply R_event_tl; exact He|exact H].
Qed.
End ClientFrame.

Section ServerFrame.
Variable E : Env.
Variable R : Server12 -> Server12 -> Prop.
Hypothesis PO : preorder R.
Hypothesis R_eng : forall v c, R c (set_sv_eng v c).
Hypothesis R_state : forall v c, R c (set_sv_state v c).
Hypothesis R_random : forall v c, R c (set_sv_random v c).
Hypothesis R_now : forall v c, R c (set_sv_now v c).
Hypothesis R_event_tl : forall ev l c, sv_events c = ev :: l -> R c (set_sv_events l c).
Hypothesis R_queue : forall d c, R c (set_sv_queued (sv_queued c ++ [d]) c).
Hypothesis R_step : forall st, pres R (s_step E st).

Lemma sf_eng {A} (m : M Eng12 A) : pres R (seng m).
Proof using R_eng. intro c. unfold seng, zoom. destruct (m (sv_eng c)). apply R_eng. Qed.

Lemma sf_progress n : pres R (s_progress E n).
Proof using PO R_step R_state.
  induction n as [|n IH]; cbn [s_progress];
    presauto PO ltac:(first [apply R_step | apply pres_modify; intro; apply R_state | exact IH]).
Qed.

Lemma sf_call c : pres R (server12_call E c).
Proof using All.
  destruct c; cbn [server12_call]; unfold no_output, some_output, server12_handle_packet,
    server12_handle_timeout, server12_send, server12_close, s_make_progress;
    try (presauto PO ltac:(first [apply lf_public | apply sf_progress | apply sf_eng
      | apply pres_modify; intro; first [apply R_state|apply R_random|apply R_now|apply R_queue]])).
  - intro c. unfold server12_poll_output.
    apply (wp_bind get _ (fun _ c' => R c c')), wp_get. destruct (sv_events c) as [|ev l] eqn:He.
    + apply sf_eng.
    + apply wp_bind, wp_modify.
      eapply wp_mono; [apply (wp_pres R), (lf_event _ PO)|].
      intros r s' H. eapply PO; [eapply R_event_tl; exact He|exact H].
Qed.
End ServerFrame.

(** Unfold every state function of the client / server. *)
Ltac unfold_c_step :=
  cbn [c_step];
  unfold c_send_client_hello, c_await_hello_verify_request, c_await_server_hello,
      c_await_certificate, c_await_server_key_exchange, c_await_server_key_exchange_ecdhe,
      c_await_server_key_exchange_psk, c_await_certificate_request,
      c_await_server_hello_done, c_send_certificate, c_send_client_key_exchange,
      c_send_certificate_verify, c_send_change_cipher_spec, c_derive_keys, c_send_finished,
      c_await_change_cipher_spec, c_await_new_session_ticket, c_await_finished,
      c_await_application_data.
Ltac unfold_s_step :=
  cbn [s_step];
  unfold s_await_client_hello, s_send_server_hello, s_send_certificate,
      s_send_server_key_exchange, s_send_server_key_exchange_psk, s_send_certificate_request,
      s_send_server_hello_done, s_await_certificate, s_await_client_key_exchange, s_process_cke,
      s_await_certificate_verify, s_await_change_cipher_spec, s_await_finished,
      s_send_change_cipher_spec, s_send_finished, s_await_application_data.

(** A property of the endpoint that every call keeps holds in every history. *)
Lemma history_inv (E : Env) (IC : Client12 -> Prop) (IS : Server12 -> Prop) :
  (forall c, pres (fun a b => IC a -> IC b) (client12_call E c)) ->
  (forall c, pres (fun a b => IS a -> IS b) (server12_call E c)) ->
  forall s0 h s, history E s0 h s ->
  match s0 with Cl c => IC c | Sv c => IS c end -> match s with Cl c => IC c | Sv c => IS c end.
Proof.
  intros HC HS s0 h s H H0. induction H as [|h s c r s' H IH NP C]; [exact H0|].
  specialize (IH). destruct s as [x|x]; cbn [end12_call] in C.
  - specialize (HC c x). destruct (client12_call E c x). injection C; clear C; intros; subst. auto.
  - specialize (HS c x). destruct (server12_call E c x). injection C; clear C; intros; subst. auto.
Qed.

Lemma reach_inv (E : Env) (IC : Client12 -> Prop) (IS : Server12 -> Prop) :
  (forall c, pres (fun a b => IC a -> IC b) (client12_call E c)) ->
  (forall c, pres (fun a b => IS a -> IS b) (server12_call E c)) ->
  (forall e now, IC (client12_new e now)) ->
  (forall e now, IS (server12_new E e now)) ->
  forall cfg auth h s, reach12 E cfg auth h s -> match s with Cl c => IC c | Sv c => IS c end.
Proof.
  intros HC HS NC NS cfg auth h s (s0 & H0 & H). eapply (history_inv E IC IS HC HS); [exact H|].
  destruct H0; [apply NS|apply NC|apply NS].
Qed.
