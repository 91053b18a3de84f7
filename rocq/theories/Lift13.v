(** Lifting of engine facts, and of facts about the other fields, to histories of a
    DTLS 1.3 endpoint. *)
From Verif Require Import Prelude Types Codec Codec12 Codec13 Record12 Record13 Monad MonadFacts Timer
  Env Config Aead Prf Window SeqRecon Engine12 Client12 Engine13 Client13 Server13 Frame13 History12
  History12Facts History13.

(** [pres] as an atomic proposition. *)
Inductive Pres {S A} (R : S -> S -> Prop) (m : M S A) : Prop := Pres_intro : pres R m -> Pres R m.
Lemma unPres {S A} (R : S -> S -> Prop) (m : M S A) : Pres R m -> pres R m.
Proof. intros []. assumption. Qed.

(** What has to be shown of a preorder on engine states for it to hold between the
    engine states before and after every API call. *)
Record step_frame13 (E : Env) (R : Eng13 -> Eng13 -> Prop) : Prop := {
  xf_po : preorder R;
  xf_orc : forall v s, R s (set_g_orc v s);
  xf_suite : forall v s, R s (set_g_suite v s);
  xf_exp : forall v s, R s (set_g_exp v s);
  xf_flight_begin : Pres R (flight_begin13 E);
  xf_create_handshake : forall mt mk, pres R mk -> Pres R (create_handshake13 E mt mk);
  xf_next : forall a b w, Pres R (next_handshake13_gen a b w);
  xf_cut_transcript : forall n s, R s (set_g_transcript (firstn n (g_transcript s)) s);
  xf_replace : forall n, Pres R (replace_transcript E n);
  xf_advance : Pres R advance_peer;
  xf_reset : Pres R reset_for_hello_retry;
  xf_install_hs : forall a b, Pres R (install_handshake_keys E a b);
  xf_install_app : forall a b, Pres R (install_application_keys E a b);
  xf_enable : Pres R (enable_peer_encryption13 E);
  xf_release : Pres R release13;
  xf_release_ret : Pres R release13_retaining;
  xf_needs : Pres R take_needs_key_update;
  xf_key_update : forall b, Pres R (create_key_update E b);
  xf_cipher : forall ct ep f, ct <> CT_HS -> Pres R (create_cipher13 E ct ep false f);
  xf_update_recv : Pres R (update_recv_keys E);
  xf_send_ack : Pres R (send_ack13 E);
  xf_send_ack_ret : Pres R (send_ack_retransmittable E);
  xf_stop : Pres R stop_timers13 }.
Record eng_frame13 (E : Env) (R : Eng13 -> Eng13 -> Prop) : Prop := {
  xf_step :> step_frame13 E R;
  xf_cancel : Pres R cancel_flights;
  xf_abort : Pres R eng13_abort;
  xf_parse : forall p, Pres R (eng13_parse_packet E p);
  xf_poll : forall cap now, Pres R (eng13_poll_output cap now);
  xf_timeout : forall now, Pres R (eng13_handle_timeout E now) }.

Section StepLift.
Variable E : Env.
Variable R : Eng13 -> Eng13 -> Prop.
Hypothesis F : step_frame13 E R.
Let PO : preorder R := xf_po _ _ F.

Lemma lf_draw13 : pres R draw13.
Proof. apply op_draw13; [exact PO|apply F]. Qed.
Lemma lf_rand13 n : pres R (rand_bytes13 E n).
Proof. apply op_rand13; [exact PO|apply F]. Qed.

Ltac engleaf :=
  first [ apply unPres, (xf_flight_begin _ _ F) | apply unPres, (xf_create_handshake _ _ F) | apply unPres, (xf_next _ _ F)
        | apply unPres, (xf_replace _ _ F) | apply unPres, (xf_advance _ _ F) | apply unPres, (xf_reset _ _ F)
        | apply unPres, (xf_install_hs _ _ F) | apply unPres, (xf_install_app _ _ F) | apply unPres, (xf_enable _ _ F)
        | apply unPres, (xf_release _ _ F) | apply unPres, (xf_release_ret _ _ F) | apply unPres, (xf_needs _ _ F)
        | apply unPres, (xf_key_update _ _ F) | apply unPres, (xf_cipher _ _ F); discriminate | apply unPres, (xf_update_recv _ _ F)
        | apply unPres, (xf_send_ack _ _ F) | apply unPres, (xf_send_ack_ret _ _ F) | apply unPres, (xf_stop _ _ F)
        | apply lf_draw13 | apply lf_rand13
        | apply (op_derive_hs E _ PO) | apply (op_derive_app E _ PO), (xf_exp _ _ F)
        | apply (op_verify_data E _ PO) | apply (op_transcript_hash E _ PO) | apply (op_keying E _ PO)
        | apply (fr_create_ch13 E _ PO) | apply (fr_create_cert13 _ PO)
        | apply (fr_create_cv13 E _ PO), (xf_orc _ _ F) | apply (fr_check_cv13 E _ PO)
        | apply pres_modify; intro; apply (xf_suite _ _ F)
        | apply pres_modify; intro; apply (xf_cut_transcript _ _ F) ].

(** Client *)
Definition RX (a b : Client13) : Prop := R (xc_eng a) (xc_eng b).
Lemma RX_po : preorder RX.
Proof. split; unfold RX; intros; [apply PO|eapply PO; eauto]. Qed.
Lemma lf_xeng {A} (m : M Eng13 A) : pres R m -> pres RX (xeng m).
Proof. apply pres_zoom. auto. Qed.
Ltac xleaf :=
  first [ assumption
        | apply lf_xeng; solve [presauto PO engleaf]
        | apply pres_modify; intro; unfold RX; cbn; apply PO ].

Lemma lf_hrr_extensions es : pres RX (hrr_extensions es).
Proof. induction es as [|[t d] es IH]; cbn [hrr_extensions]; presauto RX_po xleaf. Qed.
Lemma lf_ee13_extensions es : pres RX (ee13_extensions es).
Proof. induction es as [|[t d] es IH]; cbn [ee13_extensions]; presauto RX_po xleaf. Qed.

Lemma lf_x_step st : pres RX (x_step E st).
Proof.
  destruct st; cbn [x_step];
    unfold x_send_client_hello, x_await_server_hello, x_hello_retry, x_server_hello,
      x_await_encrypted_extensions, x_await_certificate_request, x_await_certificate,
      x_await_certificate_verify, x_await_finished, x_send_certificate, x_send_certificate_verify,
      x_send_finished, x_await_application_data, x_half_closed_local, next_handshake13,
      next_handshake13_no_transcript;
    presauto RX_po ltac:(first [apply lf_hrr_extensions | apply lf_ee13_extensions | xleaf]).
Qed.
Lemma lf_x_progress n : pres RX (x_progress E n).
Proof. induction n as [|n IH]; cbn [x_progress]; presauto RX_po ltac:(first [apply lf_x_step | xleaf]). Qed.

(** Server *)
Definition RY (a b : Server13) : Prop := R (xs_eng a) (xs_eng b).
Lemma RY_po : preorder RY.
Proof. split; unfold RY; intros; [apply PO|eapply PO; eauto]. Qed.
Lemma lf_yeng {A} (m : M Eng13 A) : pres R m -> pres RY (yeng m).
Proof. apply pres_zoom. auto. Qed.
Lemma lf_create_sh13 a b c d e : pres R (create_server_hello13 a b c d e).
Proof. unfold create_server_hello13. presauto PO idtac. Qed.
Ltac yleaf :=
  first [ assumption
        | apply lf_yeng; solve [presauto PO ltac:(first [apply lf_create_sh13|engleaf])]
        | apply pres_modify; intro; unfold RY; cbn; apply PO ].

Lemma lf_y_retry a b c : pres RY (y_retry E a b c).
Proof. unfold y_retry, send_hello_retry. presauto RY_po yleaf. Qed.
Lemma lf_y_accept a b c d : pres RY (y_accept_hello E a b c d).
Proof. unfold y_accept_hello. presauto RY_po yleaf. Qed.
Lemma lf_y_select a b c : pres RY (y_select E a b c).
Proof.
  unfold y_select, cookie13. presauto RY_po ltac:(first [apply lf_y_retry|apply lf_y_accept|yleaf]).
Qed.
Lemma lf_y_step st : pres RY (y_step E st).
Proof.
  destruct st; cbn [y_step];
    unfold y_await_client_hello, y_send_server_hello, y_send_encrypted_extensions,
      y_send_certificate_request, y_send_certificate, y_send_certificate_verify, y_send_finished,
      y_await_certificate, y_await_certificate_verify, y_await_finished, y_await_application_data,
      y_half_closed_local, next_client_hello_auto, next_handshake13, next_handshake13_no_transcript;
    presauto RY_po ltac:(first [apply lf_y_select | yleaf]).
Qed.
Lemma lf_y_progress n : pres RY (y_progress E n).
Proof. induction n as [|n IH]; cbn [y_progress]; presauto RY_po ltac:(first [apply lf_y_step | yleaf]). Qed.
End StepLift.

Section Lift.
Variable E : Env.
Variable R : Eng13 -> Eng13 -> Prop.
Hypothesis F : eng_frame13 E R.
Let PO : preorder R := xf_po _ _ F.
Let RX := RX R.
Let RY := RY R.
Let RX_po : preorder RX := RX_po E R F.
Let RY_po : preorder RY := RY_po E R F.

Ltac engleaf :=
  first [ apply unPres, (xf_cipher _ _ F); discriminate | apply unPres, (xf_cancel _ _ F) | apply unPres, (xf_abort _ _ F)
        | apply unPres, (xf_parse _ _ F) | apply unPres, (xf_poll _ _ F) | apply unPres, (xf_timeout _ _ F)
        | apply (lf_rand13 E R F) ].
Ltac xleaf :=
  first [ assumption
        | apply (lf_xeng R); solve [presauto PO engleaf]
        | apply pres_modify; intro; apply PO ].
Ltac yleaf :=
  first [ assumption
        | apply (lf_yeng R); solve [presauto PO engleaf]
        | apply pres_modify; intro; apply PO ].

Lemma lf_client13_call c : pres RX (client13_call E c).
Proof.
  destruct c; cbn [client13_call]; unfold no_output, some_output, client13_handle_packet,
    client13_poll_output, client13_handle_timeout, client13_send, client13_close, x_make_progress;
    presauto RX_po ltac:(first [apply lf_public | apply (lf_x_progress E R F)
                               | apply (lf_event _ RX_po) | xleaf]).
Qed.
Lemma lf_server13_call c : pres RY (server13_call E c).
Proof.
  destruct c; cbn [server13_call]; unfold no_output, some_output, server13_handle_packet, y_process,
    server13_poll_output, server13_handle_timeout, server13_send, server13_close, y_make_progress;
    presauto RY_po ltac:(first [apply lf_public | apply (lf_y_progress E R F)
                               | apply (lf_event _ RY_po) | yleaf]).
Qed.
Lemma lf_end13_call c s r s' : end13_call E c s = (r, s') -> R (end13_eng s) (end13_eng s').
Proof.
  destruct s as [x|x]; cbn [end13_call].
  - pose proof (lf_client13_call c x) as H. destruct (client13_call E c x). intros [= <- <-]. exact H.
  - pose proof (lf_server13_call c x) as H. destruct (server13_call E c x). intros [= <- <-]. exact H.
Qed.
Lemma lf_history13 s0 h s : history13 E s0 h s -> R (end13_eng s0) (end13_eng s).
Proof.
  induction 1 as [|h s c r s' H IH NP C]; [apply PO|]. eapply PO; [exact IH|eapply lf_end13_call; exact C].
Qed.
End Lift.

(** ** New endpoints *)

(** The engine states new endpoints start with: freshly made, up to the draw
    counter and the role; for the auto-sensing client with the hello injected. *)
Definition fresh_eng (E : Env) (cfg : Config) (cert : bytes) (key : KeyInfo) (e : Eng13) : Prop :=
  exists b n, e = set_g_orc n (set_g_client b (eng13_new E cfg cert key false)).

Lemma fresh13_eng E cfg cert key s : fresh13 E cfg cert key s ->
  fresh_eng E cfg cert key (end13_eng s) /\
  match s with
  | XC c => exists now, c = client13_new (end13_eng s) now
  | XS x => exists now auto e, x = server13_new E e now auto
  end.
Proof.
  induction 1 as [now auto|x H IH|c H IH].
  - cbn [end13_eng server13_new xs_eng]. split; [exists false; eexists; reflexivity|eauto].
  - destruct IH as ((b & n & HE) & _). cbn [end13_eng] in *. split.
    + unfold server13_into_client, client13_new. cbn [xc_eng]. rewrite HE. exists true, n. reflexivity.
    + exists (xs_now x). unfold server13_into_client, client13_new. reflexivity.
  - destruct IH as ((b & n & HE) & _). cbn [end13_eng] in *. split.
    + unfold client13_into_server, server13_new. cbn [xs_eng]. rewrite HE. exists b; eexists; reflexivity.
    + unfold client13_into_server. eauto.
Qed.

(** A property of the engine that every call keeps, true of new engines. *)
Definition hybrid_eng (E : Env) (cfg : Config) (cert : bytes) (key : KeyInfo) (fragment : bytes) : Eng13 :=
  snd (inject_hybrid fragment (eng13_new E cfg cert key true)).
(** What an endpoint starts from: the hybrid client is the client below after its
    first [handle_timeout]. *)
Definition hybrid_client (E : Env) (cfg : Config) (cert : bytes) (key : KeyInfo) random fragment kx now : Client13 :=
  mkClient13 CT_AwaitServerHello (hybrid_eng E cfg cert key fragment)
    (Some random) None None [] false None None now [] [] false (Some kx) false None None None None.
Lemma from_hybrid E random fragment kx cfg cert key now :
  client13_from_hybrid E random fragment kx cfg cert key now =
  client13_handle_timeout E now (hybrid_client E cfg cert key random fragment kx now).
Proof. reflexivity. Qed.

Lemma tick_run E now c r c' : client13_handle_timeout E now c = (r, c') ->
  snd (client13_call E (Tick now) c) = c'.
Proof. intros H. cbn [client13_call]. unfold no_output, bind. rewrite H. destruct r; reflexivity. Qed.

Lemma eng13_inv (E : Env) (I : Eng13 -> Prop) (cfg : Config) (cert : bytes) (key : KeyInfo) :
  eng_frame13 E (fun a b => I a -> I b) ->
  (forall e, fresh_eng E cfg cert key e -> I e) ->
  (forall f, I (hybrid_eng E cfg cert key f)) ->
  forall h s, reach13 E cfg cert key h s -> I (end13_eng s).
Proof.
  intros F N Hy h s (s0 & H0 & H). apply (lf_history13 E _ F _ _ _ H). clear H h s.
  destruct H0 as [s0 H|random fragment kx now c H].
  - apply N, (fresh13_eng _ _ _ _ _ H).
  - rewrite from_hybrid in H. apply tick_run in H.
    pose proof (lf_client13_call E _ F (Tick now) (hybrid_client E cfg cert key random fragment kx now)) as P.
    rewrite H in P. apply P, Hy.
Qed.

(** The same for a preorder. *)
Lemma eng13_from (E : Env) (R : Eng13 -> Eng13 -> Prop) (cfg : Config) (cert : bytes) (key : KeyInfo) :
  eng_frame13 E R -> forall h s, reach13 E cfg cert key h s ->
  exists e0, (fresh_eng E cfg cert key e0 \/ exists f, e0 = hybrid_eng E cfg cert key f) /\ R e0 (end13_eng s).
Proof.
  intros F h s (s0 & H0 & H). pose proof (lf_history13 E _ F _ _ _ H) as K. clear H h.
  destruct H0 as [s0 H|random fragment kx now c H].
  - exists (end13_eng s0). split; [left; apply (fresh13_eng _ _ _ _ _ H)|exact K].
  - rewrite from_hybrid in H. apply tick_run in H.
    pose proof (lf_client13_call E _ F (Tick now) (hybrid_client E cfg cert key random fragment kx now)) as P.
    rewrite H in P. exists (hybrid_eng E cfg cert key fragment). split; [eauto|].
    eapply (po_trans _ (xf_po _ _ F)); [exact P|exact K].
Qed.

(** ** Fields outside the engine *)

Section ClientFrame.
Variable E : Env.
Variable R : Client13 -> Client13 -> Prop.
Hypothesis PO : preorder R.
Hypothesis R_eng : forall v c, R c (set_xc_eng v c).
Hypothesis R_state : forall v c, R c (set_xc_state v c).
Hypothesis R_random : forall v c, R c (set_xc_random v c).
Hypothesis R_now : forall v c, R c (set_xc_now v c).
Hypothesis R_event_tl : forall ev l c, xc_events c = ev :: l -> R c (set_xc_events l c).
Hypothesis R_queue : forall d c, R c (set_xc_queued (xc_queued c ++ [d]) c).
Hypothesis R_step : forall st, pres R (x_step E st).

Lemma xf_eng {A} (m : M Eng13 A) : pres R (xeng m).
Proof using R_eng. intro c. unfold xeng, zoom. destruct (m (xc_eng c)). apply R_eng. Qed.
Lemma xf_progress n : pres R (x_progress E n).
Proof using PO R_step R_state.
  induction n as [|n IH]; cbn [x_progress];
    presauto PO ltac:(first [apply R_step | apply pres_modify; intro; apply R_state | exact IH]).
Qed.
Lemma xf_call c : pres R (client13_call E c).
Proof using All.
  destruct c; cbn [client13_call]; unfold no_output, some_output, client13_handle_packet,
    client13_handle_timeout, client13_send, client13_close, x_make_progress;
    try (presauto PO ltac:(first [apply lf_public | apply xf_progress | apply xf_eng
      | apply pres_modify; intro; first [apply R_state|apply R_random|apply R_now|apply R_queue]])).
  - intro c. unfold client13_poll_output.
    apply (wp_bind get _ (fun _ c' => R c c')), wp_get. destruct (xc_events c) as [|ev l] eqn:He.
    + apply xf_eng.
    + apply wp_bind, wp_modify.
      eapply wp_mono; [apply (wp_pres R), (lf_event _ PO)|].
      intros r s' H. eapply PO; [eapply R_event_tl; exact He|exact H].
Qed.
End ClientFrame.

Section ServerFrame.
Variable E : Env.
Variable R : Server13 -> Server13 -> Prop.
Hypothesis PO : preorder R.
Hypothesis R_eng : forall v c, R c (set_xs_eng v c).
Hypothesis R_state : forall v c, R c (set_xs_state v c).
Hypothesis R_random : forall v c, R c (set_xs_random v c).
Hypothesis R_now : forall v c, R c (set_xs_now v c).
Hypothesis R_event_tl : forall ev l c, xs_events c = ev :: l -> R c (set_xs_events l c).
Hypothesis R_queue : forall d c, R c (set_xs_queued (xs_queued c ++ [d]) c).
Hypothesis R_auto : forall v c, R c (set_xs_auto v c).
Hypothesis R_hellos : forall v c, R c (set_xs_hellos v c).
Hypothesis R_step : forall st, pres R (y_step E st).

Lemma yf_eng {A} (m : M Eng13 A) : pres R (yeng m).
Proof using R_eng. intro c. unfold yeng, zoom. destruct (m (xs_eng c)). apply R_eng. Qed.
Lemma yf_progress n : pres R (y_progress E n).
Proof using PO R_step R_state.
  induction n as [|n IH]; cbn [y_progress];
    presauto PO ltac:(first [apply R_step | apply pres_modify; intro; apply R_state | exact IH]).
Qed.
Lemma yf_call c : pres R (server13_call E c).
Proof using All.
  destruct c; cbn [server13_call]; unfold no_output, some_output, server13_handle_packet, y_process,
    server13_handle_timeout, server13_send, server13_close, y_make_progress;
    try (presauto PO ltac:(first [apply lf_public | apply yf_progress | apply yf_eng
      | apply pres_modify; intro; first [apply R_state|apply R_random|apply R_now|apply R_queue
          |apply R_hellos|eapply PO; [apply R_hellos|apply R_auto]]])).
  - intro c. unfold server13_poll_output.
    apply (wp_bind get _ (fun _ c' => R c c')), wp_get. destruct (xs_events c) as [|ev l] eqn:He.
    + apply yf_eng.
    + apply wp_bind, wp_modify.
      eapply wp_mono; [apply (wp_pres R), (lf_event _ PO)|].
      intros r s' H. eapply PO; [eapply R_event_tl; exact He|exact H].
Qed.
End ServerFrame.

(** Unfold every state function of the client / server. *)
Ltac unfold_x_step :=
  cbn [x_step];
  unfold x_send_client_hello, x_await_server_hello, x_hello_retry, x_server_hello,
      x_await_encrypted_extensions, x_await_certificate_request, x_await_certificate,
      x_await_certificate_verify, x_await_finished, x_send_certificate, x_send_certificate_verify,
      x_send_finished, x_await_application_data, x_half_closed_local.
Ltac unfold_y_step :=
  cbn [y_step];
  unfold y_await_client_hello, y_select, y_accept_hello, y_retry, send_hello_retry, cookie13,
      y_send_server_hello, y_send_encrypted_extensions,
      y_send_certificate_request, y_send_certificate, y_send_certificate_verify, y_send_finished,
      y_await_certificate, y_await_certificate_verify, y_await_finished, y_await_application_data,
      y_half_closed_local.

(** A property of the endpoint that every call keeps holds in every history. *)
Lemma history13_inv (E : Env) (IC : Client13 -> Prop) (IS : Server13 -> Prop) :
  (forall c, pres (fun a b => IC a -> IC b) (client13_call E c)) ->
  (forall c, pres (fun a b => IS a -> IS b) (server13_call E c)) ->
  forall s0 h s, history13 E s0 h s ->
  match s0 with XC c => IC c | XS c => IS c end -> match s with XC c => IC c | XS c => IS c end.
Proof.
  intros HC HS s0 h s H H0. induction H as [|h s c r s' H IH NP C]; [exact H0|].
  destruct s as [x|x]; cbn [end13_call] in C.
  - specialize (HC c x). destruct (client13_call E c x). injection C; clear C; intros; subst. auto.
  - specialize (HS c x). destruct (server13_call E c x). injection C; clear C; intros; subst. auto.
Qed.

Lemma reach13_inv (E : Env) (IC : Client13 -> Prop) (IS : Server13 -> Prop) cfg cert key :
  (forall c, pres (fun a b => IC a -> IC b) (client13_call E c)) ->
  (forall c, pres (fun a b => IS a -> IS b) (server13_call E c)) ->
  (forall e now, fresh_eng E cfg cert key e -> IC (client13_new e now)) ->
  (forall e now auto, fresh_eng E cfg cert key (xs_eng (server13_new E e now auto)) -> IS (server13_new E e now auto)) ->
  (forall r f kx now, IC (hybrid_client E cfg cert key r f kx now)) ->
  forall h s, reach13 E cfg cert key h s -> match s with XC c => IC c | XS c => IS c end.
Proof.
  intros HC HS NC NS NH h s (s0 & H0 & H). eapply (history13_inv E IC IS HC HS); [exact H|].
  destruct H0 as [s0 H0|random fragment kx now c H0].
  - destruct (fresh13_eng _ _ _ _ _ H0) as (F & K). destruct s0 as [c|c].
    + destruct K as (now & ->). apply NC. destruct F as (b & n & Hb). cbn [end13_eng client13_new xc_eng] in Hb |- *.
      cbn [end13_eng] in *. exists b, n. rewrite Hb. reflexivity.
    + destruct K as (now & auto & e & ->). apply NS. exact F.
  - rewrite from_hybrid in H0. pose proof (HC (Tick now) (hybrid_client E cfg cert key random fragment kx now)) as P.
    apply tick_run in H0. rewrite H0 in P. apply P, NH.
Qed.

(** Frames by applying the lemmas of Frame13.v; [pre] solves the goals about the
    preorder and single updates. *)
Ltac fr13 pre :=
  lazymatch goal with
  | |- Pres _ _ => apply Pres_intro; fr13 pre
  | |- pres _ draw13 => apply op_draw13; fr13 pre
  | |- pres _ (rand_bytes13 _ _) => apply op_rand13; fr13 pre
  | |- pres _ (rec_parse13 _ _) => apply op_rec_parse; fr13 pre
  | |- pres _ (create_plain13 _ false _) => apply op_create_plain_unsaved; fr13 pre
  | |- pres _ (create_plain13 _ _ _) => apply op_create_plain; fr13 pre
  | |- pres _ (create_cipher13 _ _ _ false _) => apply op_create_cipher_unsaved; fr13 pre
  | |- pres _ (create_cipher13 _ _ _ _ _) => apply op_create_cipher; fr13 pre
  | |- pres _ (update_send_keys _) => apply op_update_send; fr13 pre
  | |- pres _ (update_recv_keys _) => apply op_update_recv; fr13 pre
  | |- pres _ (install_handshake_keys _ _ _) => apply op_install_hs; fr13 pre
  | |- pres _ (install_application_keys _ _ _) => apply op_install_app; fr13 pre
  | |- pres _ reset_for_hello_retry => apply op_reset; fr13 pre
  | |- pres _ release13 => apply op_release; fr13 pre
  | |- pres _ eng13_abort => apply op_abort; fr13 pre
  | |- pres _ cancel_flights => apply op_cancel; fr13 pre
  | |- pres _ (next_handshake13_gen _ _ _) => apply op_next_hs; fr13 pre
  | |- pres _ (poll_app_data13 _) => apply op_poll_app; fr13 pre
  | |- pres _ (poll_packet_tx13 _) => apply op_poll_tx; fr13 pre
  | |- pres _ (insert_non_handshake13 _ _ _) => apply op_insert_non; fr13 pre
  | |- pres _ take_needs_key_update => apply fr_take_needs; fr13 pre
  | |- pres _ (create_handshake13 _ _ _) => apply fr_create_handshake13; fr13 pre
  | |- pres _ (flight_begin13 _) => apply fr_flight_begin13; fr13 pre
  | |- pres _ stop_timers13 => apply fr_stop_timers13; fr13 pre
  | |- pres _ (flight_resend13 _) => apply fr_flight_resend13; fr13 pre
  | |- pres _ (send_ack13 _) => apply fr_send_ack13; fr13 pre
  | |- pres _ (send_ack_retransmittable _) => apply fr_send_ack_retransmittable; fr13 pre
  | |- pres _ (create_key_update _ _) => apply fr_create_key_update; fr13 pre
  | |- pres _ (replace_transcript _ _) => apply fr_replace_transcript; fr13 pre
  | |- pres _ (process_ack _ _) => apply fr_process_ack; fr13 pre
  | |- pres _ (classify_record13 _ _) => apply fr_classify13; fr13 pre
  | |- pres _ (classify_all13 _ _) => apply fr_classify_all13; fr13 pre
  | |- pres _ (parse_loop13 _ _ _ _) => apply fr_parse_loop13; fr13 pre
  | |- pres _ (records_parse13 _ _) => apply fr_records_parse13; fr13 pre
  | |- pres _ (insert_handshake13 _ _ _ _) => apply fr_insert_hs13; fr13 pre
  | |- pres _ (insert_incoming13 _ _) => apply fr_insert13; fr13 pre
  | |- pres _ (eng13_parse_packet _ _) => apply fr_parse_packet13; fr13 pre
  | |- pres _ (enable_peer_encryption13 _) => apply fr_enable_peer13; fr13 pre
  | |- pres _ advance_peer => apply fr_advance_peer; fr13 pre
  | |- pres _ (maybe_flush_ack _ _) => apply fr_flush; fr13 pre
  | |- pres _ (eng13_handle_timeout _ _) => apply fr_handle_timeout13; fr13 pre
  | |- pres _ (eng13_poll_output _ _) => apply fr_poll_output13; fr13 pre
  | |- pres _ release13_retaining => apply fr_release_ret; fr13 pre
  | |- pres _ _ => solve [assumption | pre]
  | |- forall _, _ => first [solve [pre] | intro; fr13 pre]
  | |- _ => pre
  end.
Ltac frame13_all pre := constructor; [constructor|..]; fr13 pre.

(** The same, trying [over] first everywhere: for operations the frame lemmas are
    too weak for. *)
Ltac fr13o over pre :=
  first [solve [over] |
  lazymatch goal with
  | |- Pres _ _ => apply Pres_intro; fr13o over pre
  | |- pres _ draw13 => apply op_draw13; fr13o over pre
  | |- pres _ (rand_bytes13 _ _) => apply op_rand13; fr13o over pre
  | |- pres _ (rec_parse13 _ _) => apply op_rec_parse; fr13o over pre
  | |- pres _ (create_plain13 _ false _) => apply op_create_plain_unsaved; fr13o over pre
  | |- pres _ (create_plain13 _ _ _) => apply op_create_plain; fr13o over pre
  | |- pres _ (create_cipher13 _ _ _ false _) => apply op_create_cipher_unsaved; fr13o over pre
  | |- pres _ (create_cipher13 _ _ _ _ _) => apply op_create_cipher; fr13o over pre
  | |- pres _ (update_send_keys _) => apply op_update_send; fr13o over pre
  | |- pres _ (update_recv_keys _) => apply op_update_recv; fr13o over pre
  | |- pres _ (install_handshake_keys _ _ _) => apply op_install_hs; fr13o over pre
  | |- pres _ (install_application_keys _ _ _) => apply op_install_app; fr13o over pre
  | |- pres _ reset_for_hello_retry => apply op_reset; fr13o over pre
  | |- pres _ release13 => apply op_release; fr13o over pre
  | |- pres _ eng13_abort => apply op_abort; fr13o over pre
  | |- pres _ cancel_flights => apply op_cancel; fr13o over pre
  | |- pres _ (next_handshake13_gen _ _ _) => apply op_next_hs; fr13o over pre
  | |- pres _ (poll_app_data13 _) => apply op_poll_app; fr13o over pre
  | |- pres _ (poll_packet_tx13 _) => apply op_poll_tx; fr13o over pre
  | |- pres _ (insert_non_handshake13 _ _ _) => apply op_insert_non; fr13o over pre
  | |- pres _ take_needs_key_update => apply fr_take_needs; fr13o over pre
  | |- pres _ (create_handshake13 _ _ _) => apply fr_create_handshake13; fr13o over pre
  | |- pres _ (flight_begin13 _) => apply fr_flight_begin13; fr13o over pre
  | |- pres _ stop_timers13 => apply fr_stop_timers13; fr13o over pre
  | |- pres _ (flight_resend13 _) => apply fr_flight_resend13; fr13o over pre
  | |- pres _ (send_ack13 _) => apply fr_send_ack13; fr13o over pre
  | |- pres _ (send_ack_retransmittable _) => apply fr_send_ack_retransmittable; fr13o over pre
  | |- pres _ (create_key_update _ _) => apply fr_create_key_update; fr13o over pre
  | |- pres _ (replace_transcript _ _) => apply fr_replace_transcript; fr13o over pre
  | |- pres _ (process_ack _ _) => apply fr_process_ack; fr13o over pre
  | |- pres _ (classify_record13 _ _) => apply fr_classify13; fr13o over pre
  | |- pres _ (classify_all13 _ _) => apply fr_classify_all13; fr13o over pre
  | |- pres _ (parse_loop13 _ _ _ _) => apply fr_parse_loop13; fr13o over pre
  | |- pres _ (records_parse13 _ _) => apply fr_records_parse13; fr13o over pre
  | |- pres _ (insert_handshake13 _ _ _ _) => apply fr_insert_hs13; fr13o over pre
  | |- pres _ (insert_incoming13 _ _) => apply fr_insert13; fr13o over pre
  | |- pres _ (eng13_parse_packet _ _) => apply fr_parse_packet13; fr13o over pre
  | |- pres _ (enable_peer_encryption13 _) => apply fr_enable_peer13; fr13o over pre
  | |- pres _ advance_peer => apply fr_advance_peer; fr13o over pre
  | |- pres _ (maybe_flush_ack _ _) => apply fr_flush; fr13o over pre
  | |- pres _ (eng13_handle_timeout _ _) => apply fr_handle_timeout13; fr13o over pre
  | |- pres _ (eng13_poll_output _ _) => apply fr_poll_output13; fr13o over pre
  | |- pres _ release13_retaining => apply fr_release_ret; fr13o over pre
  | |- pres _ _ => solve [assumption | pre]
  | |- forall _, _ => first [solve [pre] | intro; fr13o over pre]
  | |- _ => pre
  end].
Ltac frame13_over over pre := constructor; [constructor|..]; fr13o over pre.
